(* Verifications between two sessions, from the creation of the sessions. *)
From Coq Require Import Lia ZifyN ZifyNat Znumtheory.
From Verif Require Import Base BaseLemmas Types Crypto Encoding CryptoProofs SpecData3 Data3Lemmas SpecData4 SMP SMP4 SpecSMP SpecSMP4 Protocol Session
  SpecSession SpecNet Net3Proofs Net4Proofs NetLemmas Net4Lemmas SpecVerify VerifyProofs Verify4Proofs.
Local Open Scope N_scope.

Section WithCrypto.
Context (C : Crypto).

Lemma of_N_gcd a b : Z.gcd (Z.of_N a) (Z.of_N b) = Z.of_N (N.gcd a b).
Proof. destruct a, b; reflexivity. Qed.
Lemma smp_dh_group : smp_group C -> dh_group_ok C.
Proof.
  intros (PP & _ & [G1 G2] & _). split; [lia|].
  assert (R : rel_prime (Z.of_N (c_dh_g C)) (Z.of_N (c_dh_p C))) by (apply rel_prime_le_prime; [exact PP|lia]).
  apply Zgcd_1_rel_prime in R. apply N2Z.inj. rewrite <- of_N_gcd. exact R.
Qed.

Lemma course3_inv da db sa sb x a l : start_net3 C da db sa sb x -> smp_group C -> course3 C (de_tag da) (de_tag db) x a l ->
  exists ssid ka kb, ev_dsa (x_e3 x) = Some ka /\ ev_dsa (x_e2 x) = Some kb /\ course_inv3 C da db ssid ka kb a l.
Proof.
  intros H SG CO. pose proof (smp_dh_group SG) as GO. pose proof H as (_ & _ & LA & LB & _ & _ & PA & AB & _ & _). apply preferred_allowed in PA.
  apply net3_secured in H. destruct H as ((ka & kb & KA & KB & SEC) & _ & DA & DB). apply secured_linked in SEC.
  destruct SEC as (s0 & ssid & S0 & L0). rewrite DA, DB in L0. exists ssid, ka, kb. split; [assumption|]. split; [assumption|].
  induction CO as [a|a l text l1 rs out l2 CO IH S1 S2|a l b l1 CO IH S|l secret question v CO IH R|l secret question v CO IH R].
  - destruct L0 as (HA & HB & _). destruct (start_pairing C GO (de_tag da) (de_tag db) s0 S0) as [P1 P2].
    split; [reflexivity|]. split; [reflexivity|]. exists (cv_a s0), (cv_b s0), (smp_new ssid (Encoding.otr3_fingerprint C (dsa_pk kb))), (smp_new ssid (otr3_fingerprint C (dsa_pk ka))).
    split; [split; [exact HA|split; [constructor|reflexivity]]|]. split; [split; [exact HB|split; [constructor|reflexivity]]|].
    destruct a; assumption.
  - eapply (course_turn3 C GO); eassumption.
  - eapply course_other3; eassumption.
  - rewrite KA, KB in R. eapply (course_verify_a3 C GO); eassumption.
  - rewrite KA, KB in R. eapply (course_verify_b3 C GO); eassumption.
Qed.

Lemma verified3 da db sa sb x : start_net3 C da db sa sb x -> smp_group C ->
  (forall l secret question (v : verification C (de_tag da) (de_tag db) (li_a l) (li_b l) secret question),
     course3 C (de_tag da) (de_tag db) x true l -> ready3 (ev_dsa (x_e3 x)) (ev_dsa (x_e2 x)) v ->
     (same3 v /\ told v UMSmpSucceeded) \/ (other3 v /\ told v UMSmpFailed)) /\
  (forall l secret question (v : verification C (de_tag db) (de_tag da) (li_b l) (li_a l) secret question),
     course3 C (de_tag da) (de_tag db) x false l -> ready3 (ev_dsa (x_e2 x)) (ev_dsa (x_e3 x)) v ->
     (same3 v /\ told v UMSmpSucceeded) \/ (other3 v /\ told v UMSmpFailed)).
Proof.
  intros H SG. pose proof (smp_dh_group SG) as GO. pose proof H as (_ & _ & LA & LB & _ & _ & PA & AB & _ & _). apply preferred_allowed in PA.
  split; intros l secret question v CO RD; destruct (course3_inv _ _ _ _ _ _ _ H SG CO) as (ssid & ka & kb & KA & KB & IV); rewrite KA, KB in RD.
  - eapply (course_verify_a3 C GO); eassumption.
  - eapply (course_verify_b3 C GO); eassumption.
Qed.

Lemma texts3 da db sa sb x a l text l1 text' rs out l2 : start_net3 C da db sa sb x -> smp_group C ->
  course3 C (de_tag da) (de_tag db) x a l ->
  net_step C (de_tag da) (de_tag db) l (Sends a text) l1 -> net_step C (de_tag da) (de_tag db) l1 (Arrives a text' rs out) l2 ->
  text' = text /\ shown (if a then de_tag da else de_tag db) text rs out.
Proof.
  intros H SG CO S1 S2. pose proof (smp_dh_group SG) as GO. pose proof H as (_ & _ & LA & LB & _ & _ & PA & AB & _ & _). apply preferred_allowed in PA.
  destruct (course3_inv _ _ _ _ _ _ _ H SG CO) as (ssid & ka & kb & KA & KB & IV).
  destruct (course_turn3 C GO _ _ _ _ _ _ _ _ _ _ _ _ _ LA LB PA AB IV S1 S2) as (E & S & _). auto.
Qed.

Lemma course4_inv da db sa sb x a l : start_net4 C da db sa sb x -> smp4_group C -> course4 C (de_tag da) (de_tag db) x a l ->
  exists fa fb ssid, course_inv4 C da db fa fb ssid a l.
Proof.
  intros H SG CO. pose proof H as (_ & _ & LA & LB & _ & _ & PA & AB & _ & GO & EC & _). apply preferred_allowed in PA.
  apply net4_secured in H. destruct H as ((SEC & _) & DA & DB). apply secured_linked4 in SEC.
  destruct SEC as (s0 & fa & fb & ssid & S0 & L0). rewrite DA, DB in L0. exists fa, fb, ssid.
  induction CO as [a|a l text l1 rs out l2 CO IH S1 S2|a l text l1 rs out l2 CO IH S1 S2 SH|a l text l1 l2 CO IH S1 S2|a l b l1 CO IH S
                  |a l secret question v CO IH R|a l secret question v CO IH R].
  - destruct L0 as (HA & HB & _). destruct (start_pairing4 C GO (de_tag da) (de_tag db) s0 S0) as [P1 P2].
    split; [reflexivity|]. split; [reflexivity|]. exists (cw_a s0), (cw_b s0), (smp4_new fa fb ssid), (smp4_new fb fa ssid).
    split; [split; [exact HA|repeat split; discriminate]|]. split; [split; [exact HB|repeat split; discriminate]|].
    destruct a; assumption.
  - eapply (course_turn4 C GO EC da db); eassumption.
  - destruct (course_turn4 C GO EC da db LA LB PA AB _ _ _ _ _ _ _ _ _ _ _ IH S1 S2) as (_ & _ & [[_ IV]|[RF _]]); [exact IV|].
    exfalso. eapply shown_not_refused; eassumption.
  - eapply (course_lost4 C GO EC da db); eassumption.
  - eapply course_other4; eassumption.
  - eapply (course_verify_a4 C GO EC da db); eassumption.
  - eapply (course_verify_b4 C GO EC da db); eassumption.
Qed.

Lemma verified4 da db sa sb x : start_net4 C da db sa sb x -> smp4_group C ->
  (forall l secret question (v : verification C (de_tag da) (de_tag db) (li_a l) (li_b l) secret question),
     course4 C (de_tag da) (de_tag db) x true l -> ready4 v ->
     (same4 v /\ told v UMSmpSucceeded) \/ (other4 v /\ told v UMSmpFailed)) /\
  (forall l secret question (v : verification C (de_tag db) (de_tag da) (li_b l) (li_a l) secret question),
     course4 C (de_tag da) (de_tag db) x false l -> ready4 v ->
     (same4 v /\ told v UMSmpSucceeded) \/ (other4 v /\ told v UMSmpFailed)).
Proof.
  intros H SG. pose proof H as (_ & _ & LA & LB & _ & _ & PA & AB & _ & GO & EC & _). apply preferred_allowed in PA.
  split; intros l secret question v CO RD; destruct (course4_inv _ _ _ _ _ _ _ H SG CO) as (fa & fb & ssid & IV).
  - eapply (course_verify_a4 C GO EC da db LA LB PA AB fa fb ssid true); eassumption.
  - eapply (course_verify_b4 C GO EC da db LA LB PA AB fa fb ssid true); eassumption.
Qed.

Lemma texts4 da db sa sb x a l text l1 text' rs out l2 : start_net4 C da db sa sb x -> smp4_group C ->
  course4 C (de_tag da) (de_tag db) x a l ->
  net_step C (de_tag da) (de_tag db) l (Sends a text) l1 -> net_step C (de_tag da) (de_tag db) l1 (Arrives a text' rs out) l2 ->
  text' = text /\
  (shown (if a then de_tag da else de_tag db) text rs out \/
   refused (if a then de_tag da else de_tag db) rs out /\
   exists ps, (if a then li_ab l1 else li_ba l1) = [(ps, text)] /\
     repeats_key C (if a then li_b l1 else li_a l1) (if a then de_tag da else de_tag db) ps).
Proof.
  intros H SG CO S1 S2. pose proof H as (_ & _ & LA & LB & _ & _ & PA & AB & _ & GO & EC & _). apply preferred_allowed in PA.
  destruct (course4_inv _ _ _ _ _ _ _ H SG CO) as (fa & fb & ssid & IV).
  destruct (course_turn4 C GO EC da db LA LB PA AB _ _ _ _ _ _ _ _ _ _ _ IV S1 S2) as (E & _ & [[S _]|S]); auto.
Qed.

Lemma same_secret3 da db sa sb x : start_net3 C da db sa sb x -> smp_group C ->
  (forall l secret question (v : verification C (de_tag da) (de_tag db) (li_a l) (li_b l) secret question),
     course3 C (de_tag da) (de_tag db) x true l -> ready3 (ev_dsa (x_e3 x)) (ev_dsa (x_e2 x)) v ->
     answer v = Some secret -> told v UMSmpSucceeded) /\
  (forall l secret question (v : verification C (de_tag db) (de_tag da) (li_b l) (li_a l) secret question),
     course3 C (de_tag da) (de_tag db) x false l -> ready3 (ev_dsa (x_e2 x)) (ev_dsa (x_e3 x)) v ->
     answer v = Some secret -> told v UMSmpSucceeded).
Proof.
  intros H SG. destruct (verified3 _ _ _ _ _ H SG) as [VA VB].
  split; intros l secret question v CO RD AN; [destruct (VA _ _ _ v CO RD) as [[_ T]|[(reply & n & m & AN' & (s1 & S1 & N1) & (s2 & S2 & N2) & NE) _]]
    |destruct (VB _ _ _ v CO RD) as [[_ T]|[(reply & n & m & AN' & (s1 & S1 & N1) & (s2 & S2 & N2) & NE) _]]]; auto;
    exfalso; apply NE; congruence.
Qed.
Lemma same_secret4 da db sa sb x : start_net4 C da db sa sb x -> smp4_group C ->
  (forall l secret question (v : verification C (de_tag da) (de_tag db) (li_a l) (li_b l) secret question),
     course4 C (de_tag da) (de_tag db) x true l -> ready4 v -> answer v = Some secret -> told v UMSmpSucceeded) /\
  (forall l secret question (v : verification C (de_tag db) (de_tag da) (li_b l) (li_a l) secret question),
     course4 C (de_tag da) (de_tag db) x false l -> ready4 v -> answer v = Some secret -> told v UMSmpSucceeded).
Proof.
  intros H SG. destruct (verified4 _ _ _ _ _ H SG) as [VA VB].
  split; intros l secret question v CO RD AN; [destruct (VA _ _ _ v CO RD) as [[_ T]|[(reply & n & m & AN' & (o1 & t1 & d1 & c1 & S1 & N1) & (o2 & t2 & d2 & c2 & S2 & N2) & NE) _]]
    |destruct (VB _ _ _ v CO RD) as [[_ T]|[(reply & n & m & AN' & (o1 & t1 & d1 & c1 & S1 & N1) & (o2 & t2 & d2 & c2 & S2 & N2) & NE) _]]]; auto;
    exfalso; apply NE; rewrite S1 in S2; injection S2 as <- <- <- <-; congruence.
Qed.
End WithCrypto.
