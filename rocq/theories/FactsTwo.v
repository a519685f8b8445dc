(* Two hosts, one of which asks and the other answers. *)
From Verif Require Import Base Lemmas SpecDns Hash Wire WireSafe Rec Qry CacheOps QryInv Out In Api SpecDaemon SpecCache SpecLife Step SpecStep SpecHear SpecAnswer FactsHear FactsKnow FactsAnswer FactsUni FactsLife FactsIn FactsCache FactsOut FactsStep FactsTold.

Lemma heard_asks : forall m n ty cl, says m (IQuestion n ty cl) -> In (mkquestion n ty cl) (m_qd (heard m)).
Proof. intros m n ty cl I. unfold heard. cbn [m_qd]. apply in_flat_map. exists (IQuestion n ty cl). split; [exact I|left; reflexivity]. Qed.
Lemma asks_heard : forall m q, In q (m_qd (heard m)) -> says m (IQuestion (q_name q) (q_type q) (q_class q)).
Proof.
  intros m q I. unfold heard in I. cbn [m_qd] in I. apply in_flat_map in I as (i & Ii & Iq). destruct i as [n ty cl|]; [|destruct Iq]. destruct Iq as [<-|[]]. exact Ii.
Qed.

Lemma found : forall B eB B1 mB kB tldB n ty A eA fromB r X, reach B -> legal B eB OOut -> step B eB OOut = Ok (B1, RMsg mB kB) -> sendable tldB mB -> o_qr mB = false ->
  says mB (IQuestion n ty (class A)) -> (forall ty' cl, ~ says mB (IQuestion DISCO_NAME ty' cl)) ->
  reach A -> 0 <= fst (e_now eA) -> 0 <= snd (e_now eA) -> is_shutdown A = false -> foreign A eA fromB -> port fromB = 5353 -> uans (R A) = [] -> disco A = false ->
  record A r X -> a_name (rr X) = n -> a_type (rr X) = ty -> unique X = 0 \/ unique X = 5 -> 4 <= tries X -> ~ waits A Pause r -> ~ knows (heard mB) (mkquestion n ty (class A)) X ->
  exists A1, process_in A [(eA, Datagram (snd (packet_of mB)) fromB)] = Ok (A1, 0) /\ reach A1 /\
  forall eA' A2 mA kA tldA, legal A1 eA' OOut -> step A1 eA' OOut = Ok (A2, RMsg mA kA) -> micros (e_now eA) + 119 <= micros (e_now eA') -> ~ full A1 mA -> sendable tldA mA ->
    o_to mA = group (d_family A) /\
    (a_ttl (rr X) <> 0 -> set_by_type (rr X) ->
     forall B2 e2 fromA y, reach B2 -> 0 <= fst (e_now e2) -> is_shutdown B2 = false -> foreign B2 e2 fromA -> (forall k, e_cb e2 k = false) -> registered B2 y -> is_for y n ty ->
       (forall c, cache_holds B2 c -> ~ same_content (c_rr c) (rr X)) ->
       exists B3 T v, process_in B2 [(e2, Datagram (snd (packet_of mA)) fromA)] = Ok (B3, 0) /\ reach B3 /\ told (Q B3) = told (Q B2) ++ T /\ In (q_cb y, v) T /\ same_content v (rr X) /\ fst (e_now e2) < a_ttl v).
Proof.
  intros B eB B1 mB kB tldB n ty A eA fromB r X KB LB EB SB QB Sq Nd KA N1 N2 SdA F Pf Eu Dz EX Nx Tx U T Np Kn.
  pose proof (packet_delivered B eB B1 mB kB tldB KB LB EB SB A eA fromB) as Pd. destruct (packet_own B eB B1 mB kB tldB KB LB EB SB) as (_ & _ & Wf).
  assert (Lg : legal A eA (OIn (heard mB) fromB)) by (split; assumption).
  destruct (question_answered A eA (heard mB) fromB (mkquestion n ty (class A)) r X KA Lg SdA F) as (A1 & k & E1 & Q1); try assumption.
  - unfold heard, heard_header. cbn [m_header]. rewrite QB. reflexivity.
  - apply heard_asks; exact Sq.
  - split; [reflexivity|]. split; [exact EX|]. split; [exact Nx|]. left. symmetry. exact Tx.
  - intros q Iq En. apply asks_heard in Iq. rewrite En in Iq. exact (Nd _ _ Iq).
  - exists A1. assert (E1' : mdnsd_in A eA (heard mB) fromB = Ok (A1, k)). { cbn [step] in E1. apply bind_ok in E1 as ([x1 x2] & Ei & E1). injection E1 as <- <-. exact Ei. }
    rewrite E1' in Pd. cbn [bind fst] in Pd. split; [exact Pd|]. assert (KA1 : reach A1) by (eapply reach_step; eauto). split; [exact KA1|].
    intros eA' A2 mA kA tldA LA' EA Tm Nf SA. destruct (Q1 eA' A2 mA kA LA' EA Tm) as (To & [[Qa Sa]|Fl]); [|contradiction]. split; [exact To|].
    intros Tz By B2 e2 fromA y K2 M2 Sd2 F2 Cb Ry Fy Nc. destruct (delivered A1 eA' A2 mA kA tldA KA1 LA' EA SA Qa B2 e2 fromA K2 M2 Sd2 F2) as (B3 & P3 & K3 & _ & Tl).
    destruct (Tl X y) as (TT & v & H1 & H2 & H3 & H4); try assumption; [eexists; exact Sa|rewrite Nx, Tx; exact Fy|]. exists B3, TT, v. auto 8.
Qed.

(* The record is withdrawn and the other host hears of it. *)
Lemma forgotten : forall A eA A1 mA kA tld X, reach A -> legal A eA OOut -> uans (R A) = [] -> step A eA OOut = Ok (A1, RMsg mA kA) -> o_qr mA = true -> sendable tld mA ->
  shows mA X -> a_ttl (rr X) = 0 -> (forall Y, shows mA Y -> set_by_type (rr Y) /\ (same_content (rr Y) (rr X) -> a_ttl (rr Y) = 0)) ->
  forall t0 cls frm l B eB fromA, 0 <= fst t0 -> history (mdnsd_new t0 cls frm) l B -> asks_exact l -> 0 <= fst (e_now eB) -> is_shutdown B = false -> foreign B eB fromA ->
  exists B1 T, process_in B [(eB, Datagram (snd (packet_of mA)) fromA)] = Ok (B1, 0) /\ reach B1 /\ told (Q B1) = told (Q B) ++ T /\
    (forall c, cache_holds B1 c -> ~ same_content (c_rr c) (rr X)) /\
    (forall c y y', cache_holds B c -> same_content (c_rr c) (rr X) -> registered B y -> is_for y (a_name (rr X)) (a_type (rr X)) -> registered B1 y' -> is_for y' (a_name (rr X)) (a_type (rr X)) ->
       In (q_cb y, set_ttl (c_rr c) 0) T).
Proof.
  intros A eA A1 mA kA tld X K L Eu E Qr S (cl & Sh) Tz Only t0 cls frm l B eB fromA N0 Hh Ax N Sd F. pose proof (history_reach _ _ _ (reach_new t0 cls frm N0) Hh) as KB.
  destruct (packet_own A eA A1 mA kA tld K L E S) as (_ & _ & Wf). pose proof (packet_delivered A eA A1 mA kA tld K L E S B eB fromA) as Pd.
  destruct (in_does B eB (heard mA) fromA KB N Wf) as (B1 & k & Ei & _). rewrite Ei in Pd. cbn [bind fst] in Pd.
  assert (Lg : legal B eB (OIn (heard mA) fromA)) by (split; assumption).
  assert (Es : step B eB (OIn (heard mA) fromA) = Ok (B1, RInt k)) by (cbn [step]; rewrite Ei; reflexivity).
  assert (Hqr : h_qr (m_header (heard mA)) <> 0) by (unfold heard, heard_header; cbn [m_header]; rewrite Qr; discriminate).
  destruct (gone_told t0 cls frm l B eB _ _ _ N0 Hh Ax Lg ltac:(discriminate) Es) as (T & ET & GT). unfold calls_made in ET. cbn [ev_after ev_before] in ET.
  exists B1, T. split; [exact Pd|]. split; [eapply reach_step; eauto|]. split; [exact ET|].
  assert (No : forall c, cache_holds B1 c -> ~ same_content (c_rr c) (rr X)).
  { pose proof (Only X (ex_intro _ cl Sh)) as [By _]. destruct S as (_ & Snd & _). unfold says in Sh. pose proof Sh as Sh'. apply in_split in Sh' as (pre & post & Ep).
    destruct (heard_record 1 (shown SAn cl X)) as [|a [|? ?]] eqn:Ha; try (unfold shown in Ha; cbn [heard_record section_of Nat.eqb] in Ha; discriminate Ha).
    destruct (heard_key tld 1 cl X a (Snd _ Sh) By Ha) as (Kx & Tt & _).
    assert (Man : m_an (heard mA) = flat_map (heard_record 1) pre ++ a :: flat_map (heard_record 1) post) by (unfold heard; cbn [m_an]; rewrite Ep, flat_map_app; cbn [flat_map]; rewrite Ha; reflexivity).
    unfold wf_message in Wf. rewrite Forall_forall in Wf. assert (Wa : wf_resource a) by (apply Wf; rewrite Man; apply in_or_app; right; left; reflexivity).
    intros c Hc Sc. apply akey_iff in Sc. destruct (answer_effect B eB (heard mA) fromA B1 _ _ a _ KB Lg Sd F Hqr Man Es c Hc) as [(b & Ib & Tb & Sb)|[P _]].
    2:{ apply (P ltac:(congruence)). apply (rkey_iff _ _ Wa). congruence. }
    assert (Ib' : In b (m_an (heard mA))) by (rewrite Man; apply in_or_app; right; right; exact Ib). apply (rkey_iff _ _ (Wf b Ib')) in Sb.
    apply in_flat_map in Ib as (i & Ii & Ib). assert (Ii' : In i (items (o_calls mA))) by (rewrite Ep; apply in_or_app; right; right; exact Ii).
    destruct (additional_relevant A eA A1 mA kA K L Eu E Qr) as (LL & EE & Eit & _). rewrite Eit in Ii'. apply in_app_or in Ii' as [Ii'|Ii']; apply in_map_iff in Ii' as ([r Y] & <- & IY); [|destruct Ib].
    assert (SY : shows mA Y) by (exists (flushing (class A) Y); unfold says; rewrite Ep; apply in_or_app; right; right; exact Ii).
    destruct (Only Y SY) as [ByY ZY]. unfold as_answer in *. cbn [snd] in *. destruct (heard_record 1 (shown SAn (flushing (class A) Y) Y)) as [|b' [|? ?]] eqn:Hb; try (unfold shown in Hb; cbn [heard_record section_of Nat.eqb] in Hb; discriminate Hb).
    destruct Ib as [<-|[]]. assert (Sy : says mA (shown SAn (flushing (class A) Y) Y)) by (unfold says; rewrite Ep; apply in_or_app; right; right; exact Ii).
    destruct (heard_key tld 1 _ Y b' (Snd _ Sy) ByY Hb) as (Ky & Ty & _). rewrite Ty in Tb. apply Tb, ZY. apply akey_iff. congruence. }
  split; [exact No|]. intros c y y' Hc Sc Ry Fy Ry' Fy'. pose proof Sc as (Nc & Tc & _). rewrite <- Nc, <- Tc in Fy, Fy'. destruct (GT c y y' Hc Ry Fy Ry' Fy') as [(c' & Hc' & Sc')|I]; [|exact I].
  exfalso. apply (No c' Hc'). apply akey_iff. apply akey_iff in Sc, Sc'. congruence.
Qed.
