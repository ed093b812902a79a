(* The properties of two OTRv4 sessions, from their creation. *)
From Verif Require Import Base BaseLemmas Types Crypto CryptoProofs Encoding EncodingProofs ClientProfile Messages MessagesProofs Fragment
  DataV3 Ratchet DataV4 SpecCurve EdGroup SpecData4 DataV4Proofs History4Proofs Conv4Proofs AKE DAKE SMP SMP4
  Protocol Session SpecWire SpecSession SessionProofs SessionPartyProofs SessionInvProofs SessionSendProofs SessionRecvProofs SessionLemmas
  SpecNet NetProofs NetAKEProofs NetDAKEProofs Net3Proofs Net4Proofs NetLemmas.
From Coq Require Import Lia ZifyN ZifyNat.
Local Open Scope N_scope.

Section WithCrypto.
Context (C : Crypto).

Lemma net4_secured da db sa sb x : start_net4 C da db sa sb x ->
  (secured4 C sa sb (x_sa2 x) (x_sb3 x) /\ x_p4 x = [] /\ x_p5 x = [] /\
  x_r1 x = [Ok UMNone] /\ x_r2 x = answered (length (x_p1 x)) (Ok UMNone) /\
  x_r3 x = answered (length (x_p2 x)) (Ok (UMSessionStarted (de_tag da))) /\
  x_r4 x = answered (length (x_p3 x)) (Ok (UMSessionStarted (de_tag db))) /\ x_r5 x = []) /\ se_details sa = da /\ se_details sb = db.
Proof.
  intros ((ha & HA) & (hb & HB) & LA & LB & RA & RB & PA & AB & ID & GO & EC & HO).
  apply history_inv in HA as [SA DA]. apply history_inv in HB as [SB DB]. split; [|auto]. rewrite <- DA, <- DB in *.
  now apply (handshake4 C GO EC sa sb x).
Qed.

(* the ratchets start small *)
Lemma init_pn s : start4 C s -> dr_pn (cw_a s) < 4294967296 /\ dr_pn (cw_b s) < 4294967296.
Proof.
  intros (ea & da & eb & db & root & sha & shb & na & nb & nb' & er & dr & _ & _ & -> & R & _).
  apply rotate_sender_ok in R. destruct R as (ecdh & sh & _ & _ & _ & -> & _). unfold dr_initialize.
  cbn [dr_pn dr_sender ra_message_id]. lia.
Qed.

Lemma secured_linked4 sa sb sa' sb' : secured4 C sa sb sa' sb' ->
  exists s0 fa fb ssid, start4 C s0 /\
    linked4 C (se_details sa) (se_details sb) (smp4_new fa fb ssid) (smp4_new fb fa ssid) (mkLink sa' sb' [] []) s0.
Proof.
  intros [IA IB DA DB (ia & ib & dra & drb & fa & fb & ssid & GA & GB & RA & RB & SA & SB & S0)].
  exists (mkConv4 dra drb [] []), fa, fb, ssid. split; [assumption|]. pose proof (init_pn _ S0) as [N1 N2]. cbn [cw_a cw_b] in N1, N2.
  split; [|split; [|split; constructor]].
  - split; [assumption|]. split; [assumption|]. split; [exact N1|]. exists ia. auto.
  - split; [assumption|]. split; [assumption|]. split; [exact N2|]. exists ib. auto.
Qed.

Lemma net4_handshake da db sa sb x : start_net4 C da db sa sb x ->
  status_of (x_sa2 x) (de_tag db) = Encrypted /\ status_of (x_sb3 x) (de_tag da) = Encrypted /\
  (exists b, ses_ssid (x_sa2 x) (de_tag db) = Ok b /\ ses_ssid (x_sb3 x) (de_tag da) = Ok b) /\
  x_r1 x = [Ok UMNone] /\ x_r2 x = answered (length (x_p1 x)) (Ok UMNone) /\
  x_r3 x = answered (length (x_p2 x)) (Ok (UMSessionStarted (de_tag da))) /\
  x_r4 x = answered (length (x_p3 x)) (Ok (UMSessionStarted (de_tag db))) /\ x_p4 x = [].
Proof.
  intros H. apply net4_secured in H. destruct H as ((SEC & P4 & _ & R1 & R2 & R3 & R4 & _) & DA & DB).
  destruct SEC as [IA IB _ _ (ia & ib & dra & drb & fa & fb & ssid & GA & GB & RA & RB & SA & SB & S0)].
  rewrite DB in GA, SA. rewrite DA in GB, SB.
  split; [unfold status_of, state_of; now rewrite GA, SA|]. split; [unfold status_of, state_of; now rewrite GB, SB|].
  split; [|auto 10]. exists ssid. unfold ses_ssid. rewrite GA, GB. unfold inst_ssid. rewrite SA, SB. auto.
Qed.

Lemma linked4_status da db smpa smpb l s : linked4 C da db smpa smpb l s ->
  status_of (li_a l) (de_tag db) = Encrypted /\ status_of (li_b l) (de_tag da) = Encrypted.
Proof.
  intros ((_ & _ & _ & ia & GA & _ & SA) & (_ & _ & _ & ib & GB & _ & SB) & _).
  unfold status_of, state_of. rewrite GA, GB, SA, SB. auto.
Qed.

Lemma net4_conversation da db sa sb x hs l : start_net4 C da db sa sb x ->
  net_run C (de_tag da) (de_tag db) (mkLink (x_sa2 x) (x_sb3 x) [] []) hs l ->
  (forall a text rs out, In (Arrives a text rs out) hs ->
     shown (if a then de_tag da else de_tag db) text rs out \/ refused (if a then de_tag da else de_tag db) rs out) /\
  status_of (li_a l) (de_tag db) = Encrypted /\ status_of (li_b l) (de_tag da) = Encrypted.
Proof.
  intros H R. pose proof H as (_ & _ & LA & LB & _ & _ & PA & AB & _ & GO & EC & _). apply preferred_allowed in PA.
  apply net4_secured in H. destruct H as ((SEC & _) & DA & DB). apply secured_linked4 in SEC.
  destruct SEC as (s0 & fa & fb & ssid & S0 & L0). rewrite DA, DB in L0.
  destruct (net_sim4 C GO EC da db LA LB PA AB _ _ _ s0 hs l S0 L0 R) as (os & s & _ & L & M).
  split; [|eapply linked4_status; eassumption]. intros a text rs out I. exact (mirrors_arrival4 da db hs os M a text rs out I).
Qed.

Lemma net4_next da db sa sb x hs l a text l1 text' rs out l2 : start_net4 C da db sa sb x ->
  net_run C (de_tag da) (de_tag db) (mkLink (x_sa2 x) (x_sb3 x) [] []) hs l ->
  speaking (de_tag da) (de_tag db) a hs ->
  net_step C (de_tag da) (de_tag db) l (Sends a text) l1 ->
  net_step C (de_tag da) (de_tag db) l1 (Arrives a text' rs out) l2 ->
  text' = text /\
  (shown (if a then de_tag da else de_tag db) text rs out \/
   refused (if a then de_tag da else de_tag db) rs out /\
   exists ps, (if a then li_ab l1 else li_ba l1) = [(ps, text)] /\
     repeats_key C (if a then li_b l1 else li_a l1) (if a then de_tag da else de_tag db) ps).
Proof.
  intros H R SP S1 S2. pose proof H as (_ & _ & LA & LB & _ & _ & PA & AB & _ & GO & EC & _). apply preferred_allowed in PA.
  apply net4_secured in H. destruct H as ((SEC & _) & DA & DB). apply secured_linked4 in SEC.
  destruct SEC as (s0 & fa & fb & ssid & S0 & L0). rewrite DA, DB in L0.
  pose proof (net4_speaker C GO EC da db LA LB PA AB _ _ _ s0 hs l a text l1 text' rs out l2 S0 L0 R SP S1 S2) as X.
  now destruct a.
Qed.
End WithCrypto.
