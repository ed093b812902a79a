(* The properties of two sessions, from their creation. *)
From Verif Require Import Base BaseLemmas Types Crypto CryptoProofs Encoding EncodingProofs ClientProfile Messages MessagesProofs Fragment
  KeyManager KeyManagerProofs DataV3 SpecData3 DataV3Proofs History3Proofs Conv3Proofs Data3Lemmas Ratchet DataV4 AKE SpecAKE DAKE SMP SMP4
  Protocol Session SpecWire SpecSession SessionProofs SessionPartyProofs SessionInvProofs SessionSendProofs SessionRecvProofs SessionLemmas
  SpecNet NetProofs NetAKEProofs Net3Proofs.
From Coq Require Import Lia ZifyN ZifyNat.
Local Open Scope N_scope.

Section WithCrypto.
Context (C : Crypto).

Lemma preferred_allowed d v : preferred d v -> allowed d v.
Proof. intros [(A & ->)|(_ & A & ->)]; exact A. Qed.

Lemma net3_secured da db sa sb x : start_net3 C da db sa sb x ->
  (exists ka kb, ev_dsa (x_e3 x) = Some ka /\ ev_dsa (x_e2 x) = Some kb /\ secured3 C ka kb sa sb (x_sa2 x) (x_sb3 x)) /\
  (x_p5 x = [] /\
  x_r1 x = [Ok UMNone] /\ x_r2 x = answered (length (x_p1 x)) (Ok UMNone) /\
  x_r3 x = answered (length (x_p2 x)) (Ok UMNone) /\
  x_r4 x = answered (length (x_p3 x)) (Ok (UMSessionStarted (de_tag db))) /\
  x_r5 x = answered (length (x_p4 x)) (Ok (UMSessionStarted (de_tag da)))) /\ se_details sa = da /\ se_details sb = db.
Proof.
  intros ((ha & HA) & (hb & HB) & LA & LB & RA & RB & PA & AB & PO & (ka & kb & KA & KB & EA & EB) & RL & PR).
  apply history_inv in HA as [SA DA]. apply history_inv in HB as [SB DB]. rewrite <- and_assoc. split; [|auto]. rewrite <- DA, <- DB in *.
  destruct (handshake3 C sa sb x ka kb) as (S3 & R3); try assumption. split; [|exact R3]. exists ka, kb. auto.
Qed.

Lemma secured_linked ka kb sa sb sa' sb' : secured3 C ka kb sa sb sa' sb' ->
  exists s0 ssid, start3 C s0 /\
    linked3 C (se_details sa) (se_details sb) (smp_new ssid (otr3_fingerprint C (dsa_pk kb)))
      (smp_new ssid (otr3_fingerprint C (dsa_pk ka))) (mkLink sa' sb' [] []) s0.
Proof.
  intros [IA IB DA DB (ia & ib & kma & kmb & ssid & GA & GB & RA & RB & SA & SB & S0)].
  exists (mkConv3 kma kmb [] []), ssid. split; [assumption|].
  assert (N : narrow kma /\ narrow kmb).
  { destruct S0 as (xa & xb & ra0 & ra1 & rb0 & rb1 & EA & EB & _). cbn [cv_a cv_b] in EA, EB.
    apply km_new_state in EA. apply km_new_state in EB. destruct EA as (A1 & A2 & _). destruct EB as (B1 & B2 & _).
    unfold narrow. rewrite A1, A2, B1, B2. lia. }
  split; [|split; [|split; constructor]].
  - split; [assumption|]. split; [assumption|]. split; [apply N|]. exists ia. auto.
  - split; [assumption|]. split; [assumption|]. split; [apply N|]. exists ib. auto.
Qed.

Lemma net3_handshake da db sa sb x : start_net3 C da db sa sb x ->
  status_of (x_sa2 x) (de_tag db) = Encrypted /\ status_of (x_sb3 x) (de_tag da) = Encrypted /\
  (exists b, ses_ssid (x_sa2 x) (de_tag db) = Ok b /\ ses_ssid (x_sb3 x) (de_tag da) = Ok b) /\
  x_r1 x = [Ok UMNone] /\ x_r2 x = answered (length (x_p1 x)) (Ok UMNone) /\
  x_r3 x = answered (length (x_p2 x)) (Ok UMNone) /\
  x_r4 x = answered (length (x_p3 x)) (Ok (UMSessionStarted (de_tag db))) /\
  x_r5 x = answered (length (x_p4 x)) (Ok (UMSessionStarted (de_tag da))) /\ x_p5 x = [].
Proof.
  intros H. apply net3_secured in H. destruct H as ((ka & kb & _ & _ & SEC) & (P5 & R1 & R2 & R3 & R4 & R5) & DA & DB).
  destruct SEC as [IA IB _ _ (ia & ib & kma & kmb & ssid & GA & GB & RA & RB & SA & SB & S0)].
  rewrite DB in GA, SA. rewrite DA in GB, SB.
  split; [unfold status_of, state_of; now rewrite GA, SA|]. split; [unfold status_of, state_of; now rewrite GB, SB|].
  split; [|auto 10]. exists ssid. unfold ses_ssid. rewrite GA, GB. unfold inst_ssid. rewrite SA, SB. auto.
Qed.

Lemma linked3_status da db smpa smpb l s : linked3 C da db smpa smpb l s ->
  status_of (li_a l) (de_tag db) = Encrypted /\ status_of (li_b l) (de_tag da) = Encrypted.
Proof.
  intros ((_ & _ & _ & ia & GA & _ & SA) & (_ & _ & _ & ib & GB & _ & SB) & _).
  unfold status_of, state_of. rewrite GA, GB, SA, SB. auto.
Qed.

Lemma net3_conversation da db sa sb x hs l : start_net3 C da db sa sb x -> dh_group_ok C ->
  net_run C (de_tag da) (de_tag db) (mkLink (x_sa2 x) (x_sb3 x) [] []) hs l ->
  (forall a text rs out, In (Arrives a text rs out) hs ->
     shown (if a then de_tag da else de_tag db) text rs out \/ refused (if a then de_tag da else de_tag db) rs out) /\
  (forall b, alternating b hs -> forall a text rs out, In (Arrives a text rs out) hs ->
     shown (if a then de_tag da else de_tag db) text rs out) /\
  status_of (li_a l) (de_tag db) = Encrypted /\ status_of (li_b l) (de_tag da) = Encrypted.
Proof.
  intros H GO R. pose proof H as (_ & _ & LA & LB & _ & _ & PA & AB & _ & _). apply preferred_allowed in PA.
  apply net3_secured in H. destruct H as ((ka & kb & _ & _ & SEC) & _ & DA & DB). apply secured_linked in SEC.
  destruct SEC as (s0 & ssid & S0 & L0). rewrite DA, DB in L0.
  split; [|split].
  - intros. eapply net3_arrivals; eassumption.
  - intros b AL a text rs out I. eapply (net3_turns C da db _ _ _ s0 hs l b); eassumption.
  - destruct (net_sim3 C da db _ _ _ s0 hs l GO LA LB PA AB S0 L0 R) as (os & s & _ & L & _). eapply linked3_status; eassumption.
Qed.
End WithCrypto.
