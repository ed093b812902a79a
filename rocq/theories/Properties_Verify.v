(* Theorems about users who verify each other in the middle of their conversation. *)
From Verif Require Import Base Types Crypto ToyCrypto SpecSMP SMPLemmas SpecSMP4 SMP4Lemmas Protocol Session SpecSession SessionExamples SpecNet NetExamples
  Net4Examples SpecVerify VerifyLemmas VerifyExamples.
Local Open Scope N_scope.

(** * C70: a verification tells both users whether their secrets agree, in every conversation *)

(* OTRv3.  Two sessions go through the key exchange, and their users talk and verify each other as often as they like (see
   [course3]).  Then a verification by the user whose turn it is ends with the same verdict on both sides: success when the
   answer stands for the same number as the secret, failure when it does not. *)
Theorem C70_v3_verdict : forall C da db sa sb x, start_net3 C da db sa sb x -> smp_group C ->
  (forall l secret question (v : verification C (de_tag da) (de_tag db) (li_a l) (li_b l) secret question),
     course3 C (de_tag da) (de_tag db) x true l -> ready3 (ev_dsa (x_e3 x)) (ev_dsa (x_e2 x)) v ->
     (same3 v /\ told v UMSmpSucceeded) \/ (other3 v /\ told v UMSmpFailed)) /\
  (forall l secret question (v : verification C (de_tag db) (de_tag da) (li_b l) (li_a l) secret question),
     course3 C (de_tag da) (de_tag db) x false l -> ready3 (ev_dsa (x_e2 x)) (ev_dsa (x_e3 x)) v ->
     (same3 v /\ told v UMSmpSucceeded) \/ (other3 v /\ told v UMSmpFailed)).
Proof. exact verified3. Qed.
Print Assumptions C70_v3_verdict.

(* The same secret always succeeds. *)
Theorem C70_v3_same_secret : forall C da db sa sb x, start_net3 C da db sa sb x -> smp_group C ->
  (forall l secret question (v : verification C (de_tag da) (de_tag db) (li_a l) (li_b l) secret question),
     course3 C (de_tag da) (de_tag db) x true l -> ready3 (ev_dsa (x_e3 x)) (ev_dsa (x_e2 x)) v ->
     answer v = Some secret -> told v UMSmpSucceeded) /\
  (forall l secret question (v : verification C (de_tag db) (de_tag da) (li_b l) (li_a l) secret question),
     course3 C (de_tag da) (de_tag db) x false l -> ready3 (ev_dsa (x_e2 x)) (ev_dsa (x_e3 x)) v ->
     answer v = Some secret -> told v UMSmpSucceeded).
Proof. exact same_secret3. Qed.
Print Assumptions C70_v3_same_secret.

(* Verifications do no harm: the next text of the conversation is shown to the other user. *)
Theorem C70_v3_talk : forall C da db sa sb x a l text l1 text' rs out l2, start_net3 C da db sa sb x -> smp_group C ->
  course3 C (de_tag da) (de_tag db) x a l ->
  net_step C (de_tag da) (de_tag db) l (Sends a text) l1 -> net_step C (de_tag da) (de_tag db) l1 (Arrives a text' rs out) l2 ->
  text' = text /\ shown (if a then de_tag da else de_tag db) text rs out.
Proof. exact texts3. Qed.
Print Assumptions C70_v3_talk.

(* After two texts Alice asks; Bob answers with the same secret, or with another.  The question comes in fragments. *)
Example C70_ex3 :
  start_net3 toy ns_alice ns_bob ns_a0 ns_b0 ns_x /\ smp_group toy /\ course3 toy 301 400 ns_x true ns_l4 /\
  ready3 (ev_dsa (x_e3 ns_x)) (ev_dsa (x_e2 ns_x)) v3_same /\ told v3_same UMSmpSucceeded /\
  ready3 (ev_dsa (x_e3 ns_x)) (ev_dsa (x_e2 ns_x)) v3_other /\ told v3_other UMSmpFailed /\
  (1 < length (v_p1 v3_same))%nat.
Proof.
  split; [exact ns_start|]. split; [exact toy_smp_group|]. split; [exact v3_course|]. split; [exact v3_same_ready|].
  split; [unfold told; repeat (split; [vm_compute; reflexivity|]); vm_compute; reflexivity|]. split; [exact v3_other_ready|]. split; [unfold told; repeat (split; [vm_compute; reflexivity|]); vm_compute; reflexivity|]. vm_compute. repeat constructor.
Qed.

(* OTRv4. *)
Theorem C70_v4_verdict : forall C da db sa sb x, start_net4 C da db sa sb x -> smp4_group C ->
  (forall l secret question (v : verification C (de_tag da) (de_tag db) (li_a l) (li_b l) secret question),
     course4 C (de_tag da) (de_tag db) x true l -> ready4 v ->
     (same4 v /\ told v UMSmpSucceeded) \/ (other4 v /\ told v UMSmpFailed)) /\
  (forall l secret question (v : verification C (de_tag db) (de_tag da) (li_b l) (li_a l) secret question),
     course4 C (de_tag da) (de_tag db) x false l -> ready4 v ->
     (same4 v /\ told v UMSmpSucceeded) \/ (other4 v /\ told v UMSmpFailed)).
Proof. exact verified4. Qed.
Print Assumptions C70_v4_verdict.

Theorem C70_v4_same_secret : forall C da db sa sb x, start_net4 C da db sa sb x -> smp4_group C ->
  (forall l secret question (v : verification C (de_tag da) (de_tag db) (li_a l) (li_b l) secret question),
     course4 C (de_tag da) (de_tag db) x true l -> ready4 v -> answer v = Some secret -> told v UMSmpSucceeded) /\
  (forall l secret question (v : verification C (de_tag db) (de_tag da) (li_b l) (li_a l) secret question),
     course4 C (de_tag da) (de_tag db) x false l -> ready4 v -> answer v = Some secret -> told v UMSmpSucceeded).
Proof. exact same_secret4. Qed.
Print Assumptions C70_v4_same_secret.

(* The next text is shown, unless its fresh Diffie-Hellman key repeats the last one (see C55). *)
Theorem C70_v4_talk : forall C da db sa sb x a l text l1 text' rs out l2, start_net4 C da db sa sb x -> smp4_group C ->
  course4 C (de_tag da) (de_tag db) x a l ->
  net_step C (de_tag da) (de_tag db) l (Sends a text) l1 -> net_step C (de_tag da) (de_tag db) l1 (Arrives a text' rs out) l2 ->
  text' = text /\
  (shown (if a then de_tag da else de_tag db) text rs out \/
   refused (if a then de_tag da else de_tag db) rs out /\
   exists ps, (if a then li_ab l1 else li_ba l1) = [(ps, text)] /\
     repeats_key C (if a then li_b l1 else li_a l1) (if a then de_tag da else de_tag db) ps).
Proof. exact texts4. Qed.
Print Assumptions C70_v4_talk.

(* After Alice's text Bob asks. *)
Example C70_ex4 :
  start_net4 toy xs_alice xs_bob xs_a0 xs_b0 nf_x /\ smp4_group toy /\ course4 toy 301 400 nf_x false nf_l2 /\
  ready4 v4_same /\ told v4_same UMSmpSucceeded /\ ready4 v4_other /\ told v4_other UMSmpFailed /\
  net_step toy 301 400 nf_l2 (Sends false nf_yo) nf_l3 /\ net_step toy 301 400 nf_l3 (Arrives false nf_yo (snd nf_conv4) []) nf_l4.
Proof.
  split; [exact nf_start|]. split; [exact toy_smp4_group|]. split; [exact v4_course|]. split; [exact v4_same_ready|].
  split; [unfold told; repeat (split; [vm_compute; reflexivity|]); vm_compute; reflexivity|]. split; [exact v4_other_ready|]. split; [unfold told; repeat (split; [vm_compute; reflexivity|]); vm_compute; reflexivity|]. split; [exact nf_sends|exact nf_arrives].
Qed.
