-Q theories Verif
theories/Base.v
theories/SpecDns.v
theories/Lemmas.v
theories/Wire.v
theories/WireSafe.v
theories/WireNames.v
theories/WireEnc.v
theories/WireHost.v
theories/WireCalls.v
theories/WireCallsSpec.v
theories/WireRound.v
theories/WireSize.v
theories/WireTight.v
theories/WireFacts.v
theories/WireFindings.v
theories/PropWire.v
theories/Hash.v
theories/HashProofs.v
theories/SpecMap.v
theories/Xht.v
theories/XhtProofs.v
theories/SpecTxt.v
theories/SdTxt.v
theories/SdTxtProofs.v
theories/PropTables.v
theories/Rec.v
theories/Qry.v
theories/Out.v
theories/In.v
theories/Api.v
theories/RecInv.v
theories/RecSafe.v
theories/RecOps.v
theories/RecAddr.v
theories/OutSafe.v
theories/OutPub.v
theories/OutProbe.v
theories/OutExtra.v
theories/QryInv.v
theories/QryOps.v
theories/CacheOps.v
theories/QryReg.v
theories/QryLoop.v
theories/InSafe.v
theories/InLoop.v
theories/InResp.v
theories/OutAll.v
theories/OutSpec.v
theories/Shut.v
theories/DaemonInv.v
theories/ParseWf.v
theories/SpecDaemon.v
theories/Scenario.v
theories/FactsCalls.v
theories/FactsSafe.v
theories/PropSafe.v
theories/FactsLookup.v
theories/PropLookup.v
theories/FactsItems.v
theories/FactsIn.v
theories/PropIn.v
theories/FactsEvolve.v
theories/FactsSize.v
theories/FactsOut.v
theories/FactsBig.v
theories/PropOut.v
theories/FactsSleep.v
theories/PropSleep.v
theories/SpecCache.v
theories/FactsCache.v
theories/FactsTold.v
theories/FactsAny.v
theories/FactsBlank.v
theories/PropCache.v
theories/FactsFrame.v
theories/FactsDrain.v
theories/FactsFate.v
theories/SpecLife.v
theories/FactsLife.v
theories/FactsBye.v
theories/PropLife.v
theories/SpecAddr.v
theories/FactsAddr.v
theories/PropAddr.v
theories/SpecSpace.v
theories/FactsSpace.v
theories/PropSpace.v
theories/Step.v
theories/SpecStep.v
theories/FactsStep.v
theories/PropStep.v
theories/SpecStepExact.v
theories/FactsStepExact.v
theories/PropStepExact.v
theories/SpecHear.v
theories/FactsHear.v
theories/FactsKnow.v
theories/PropHear.v
theories/Lib.v
theories/SpecLib.v
theories/FactsLib.v
theories/PropLib.v
theories/Conf.v
theories/SpecConf.v
theories/FactsConf.v
theories/PropConf.v
theories/Iface.v
theories/SpecIface.v
theories/FactsIface.v
theories/PropIface.v
theories/Load.v
theories/SpecLoad.v
theories/FactsLoad.v
theories/FactsLoad2.v
theories/FactsLoad3.v
theories/PropLoad.v
theories/Reent.v
theories/ReentFacts.v
theories/ReentSafe.v
theories/ReentAgree.v
theories/SpecReent.v
theories/ReentRuns.v
theories/ReentAsk.v
theories/ScenarioRe.v
theories/PropReent.v
theories/Mquery.v
theories/SpecMquery.v
theories/FactsMq.v
theories/FactsMq2.v
theories/FactsMq3.v
theories/FactsMq4.v
theories/FactsMq5.v
theories/FactsMqBig.v
theories/ScenarioMq.v
theories/FactsMq6.v
theories/FactsMq8.v
theories/FactsMq7.v
theories/PropMquery.v
theories/FactsDue.v
theories/PropDue.v
theories/Free.v
theories/SpecFree.v
theories/FreeProofs.v
theories/PropFree.v
theories/SpecAnswer.v
theories/FactsUni.v
theories/FactsAnswer.v
theories/PropAnswer.v
theories/SpecData.v
theories/FactsData.v
theories/PropData.v
theories/SpecFresh.v
theories/FactsFresh.v
theories/PropFresh.v
theories/Main.v
theories/SpecMain.v
theories/FactsMain.v
theories/FactsPassing.v
theories/PropMain.v
theories/SpecFrom.v
theories/FactsFrom.v
theories/PropFrom.v
theories/Log.v
theories/SpecLog.v
theories/FactsLog.v
theories/PropLog.v
theories/Options.v
theories/SpecOptions.v
theories/FactsOptions.v
theories/PropOptions.v
theories/Pidfile.v
theories/FactsPidfile.v
theories/PropPidfile.v
theories/SpecSize.v
theories/FactsSized.v
theories/PropSize.v
theories/SpecStorm.v
theories/FactsStorm.v
theories/PropStorm.v
theories/SpecTwo.v
theories/ScenarioTwo.v
theories/FactsTwo.v
theories/PropTwo.v
theories/Signal.v
theories/SpecSignal.v
theories/FactsSignal.v
theories/PropSignal.v
theories/SpecCrowd.v
theories/FactsCrowd.v
theories/PropCrowd.v
theories/ConfInit.v
theories/SpecConfInit.v
theories/FactsConfInit.v
theories/PropConfInit.v
theories/SpecSound.v
theories/FactsSound.v
theories/PropSound.v
theories/MqMain.v
theories/SpecMqMain.v
theories/FactsMqMain.v
theories/PropMqMain.v
theories/SpecReload.v
theories/FactsReload.v
theories/PropReload.v
theories/FactsHup.v
theories/PropHup.v
theories/Settings.v
theories/SpecSettings.v
theories/FactsSettings.v
theories/PropSettings.v
theories/SpecReceive.v
theories/FactsReceive.v
theories/PropReceive.v
theories/Context.v
theories/SpecEnd.v
theories/FactsEnd.v
theories/PropEnd.v
theories/SpecContext.v
theories/FactsContext.v
theories/PropContext.v
theories/SpecDeeds.v
theories/FactsDeeds.v
theories/PropDeeds.v
theories/FactsDay.v
theories/PropDay.v
theories/IfList.v
theories/SpecIfList.v
theories/FactsIfList.v
theories/PropIfList.v
theories/SpecMqExact.v
theories/FactsMqExact.v
theories/PropMqExact.v
theories/MqText.v
theories/SpecMqText.v
theories/FactsMqText.v
theories/PropMqText.v
theories/SpecMqTypes.v
theories/FactsMq9.v
theories/ScenarioMqTypes.v
theories/PropMqTypes.v
theories/SpecMqFound.v
theories/FactsMqFound.v
theories/PropMqFound.v
