(* C37, C51: the Socialist Millionaire Protocol of OTRv4.  Only statements, references to their proofs, and
   examples showing that the hypotheses are met. *)
From Verif Require Import Base BaseLemmas Types Crypto ToyCrypto Encoding SpecWire SMP SMP4 SpecSMP4 SMP4Lemmas.
From Coq Require Import Lia ZifyN ZifyNat.
Local Open Scope Z_scope.

(** * C37, first half: both sides learn whether the secrets match *)

(* For every pair of clients of one session, every secret and question: if Bob answers with Alice's secret,
   both end with success.  Missing from the full property: random choices that make one of the numbers to
   be sent zero, see [usual_choices] (a chance of about 2^-440). *)
Theorem C37_equal_secrets_partial : forall C ans_a ans_b a b secret question x ra1 rb1 ra2 rb2 ra3,
  smp4_group C -> s4_status a <> S4InProgress -> idle4 b -> smp4_peers a b ->
  (N.of_nat (length question) < 4294967296)%N -> ans_b question = Some secret ->
  smp4_secret C (s4_us a) (s4_them a) (s4_ssid a) secret = Ok x ->
  usual_choices C ra1 rb1 ra2 rb2 x x ->
  honest_run4 C ans_a ans_b a b secret question ra1 rb1 ra2 rb2 ra3 S4Completed S4Completed.
Proof.
  intros C ans_a ans_b a b secret question x ra1 rb1 ra2 rb2 ra3 GO.
  exact (equal_secrets4 C GO ans_a ans_b a b secret question x ra1 rb1 ra2 rb2 ra3).
Qed.
Print Assumptions C37_equal_secrets_partial.

(* If Bob answers with a secret that stands for another number, neither ends with success: Bob is told that the
   secrets differ, Alice gets an error. *)
Theorem C37_different_secrets_partial : forall C ans_a ans_b a b secret_a secret_b question x y ra1 rb1 ra2 rb2 ra3,
  smp4_group C -> s4_status a <> S4InProgress -> idle4 b -> smp4_peers a b ->
  (N.of_nat (length question) < 4294967296)%N -> ans_b question = Some secret_b ->
  smp4_secret C (s4_us a) (s4_them a) (s4_ssid a) secret_a = Ok x ->
  smp4_secret C (s4_us a) (s4_them a) (s4_ssid a) secret_b = Ok y -> x mod c_ed_q C <> y mod c_ed_q C ->
  usual_choices C ra1 rb1 ra2 rb2 x y ->
  honest_run4 C ans_a ans_b a b secret_a question ra1 rb1 ra2 rb2 ra3 (S4Aborted Error4) (S4Aborted Differ4).
Proof.
  intros C ans_a ans_b a b secret_a secret_b question x y ra1 rb1 ra2 rb2 ra3 GO.
  exact (different_secrets4 C GO ans_a ans_b a b secret_a secret_b question x y ra1 rb1 ra2 rb2 ra3).
Qed.
Print Assumptions C37_different_secrets_partial.

Example C37_ex :
  smp4_group toy /\ s4_status ex4_a <> S4InProgress /\ idle4 ex4_b /\ smp4_peers ex4_a ex4_b /\
  (N.of_nat (length ex4_question) < 4294967296)%N /\
  smp4_secret toy ex4_us ex4_them ex4_ssid ex4_secret = Ok (ex4_number ex4_secret) /\
  usual_choices toy (ex4_rnd 6) (ex4_rnd 7) (ex4_rnd 8) (ex4_rnd 9) (ex4_number ex4_secret) (ex4_number ex4_secret) /\
  smp4_secret toy ex4_us ex4_them ex4_ssid ex4_other = Ok (ex4_number ex4_other) /\
  ex4_number ex4_secret mod c_ed_q toy <> ex4_number ex4_other mod c_ed_q toy /\
  usual_choices toy (ex4_rnd 6) (ex4_rnd 7) (ex4_rnd 8) (ex4_rnd 9) (ex4_number ex4_secret) (ex4_number ex4_other).
Proof.
  split; [exact toy_smp4_group|]. split; [discriminate|]. split; [reflexivity|]. split; [repeat split|].
  split; [reflexivity|]. split; [vm_compute; reflexivity|]. split; [exact ex4_usual|]. split; [vm_compute; reflexivity|].
  split; [vm_compute; discriminate|]. exact ex4_usual_other.
Qed.
Example C37_ex_run :
  s4_status (fst (ex4_b2 ex4_secret)) = S4Completed /\ s4_status (fst (ex4_a3 ex4_secret)) = S4Completed /\
  s4_status (fst (ex4_b2 ex4_other)) = S4Aborted Differ4 /\ s4_status (fst (ex4_a3 ex4_other)) = S4Aborted Error4.
Proof. repeat apply conj; vm_compute; reflexivity. Qed.

(** * C37, second half: success needs a complete verified run *)

(* Whatever a client did and received: if its status is success, its last steps are a complete run, as
   the one who started it or the one who answered, in which every zero knowledge proof was good and the
   last comparison held between the values made from the own secret and the peer's. *)
Theorem C37_success_only_verified : forall C us them ssid evs c,
  smp4_group C -> smp4_hist C us them ssid evs c -> s4_status c = S4Completed ->
  starter_success4 C us them ssid evs \/ answerer_success4 C us them ssid evs.
Proof. intros C us them ssid evs c GO. exact (success_only4 C GO us them ssid evs c). Qed.
Print Assumptions C37_success_only_verified.

Example C37_ex_hist :
  smp4_hist toy ex4_us ex4_them ex4_ssid
    [Received4 ex4_none (reply4 (ex4_b2 ex4_secret)) None;
     Received4 ex4_none (reply4 (ex4_b1 ex4_secret)) (Some (reply4 (ex4_a2 ex4_secret)));
     Started4 ex4_secret ex4_question ex4_t1] (fst (ex4_a3 ex4_secret)) /\
  s4_status (fst (ex4_a3 ex4_secret)) = S4Completed /\
  smp4_hist toy ex4_them ex4_us ex4_ssid
    [Received4 ex4_none (reply4 (ex4_a2 ex4_secret)) (Some (reply4 (ex4_b2 ex4_secret)));
     Received4 (ex4_answer ex4_secret) ex4_t1 (Some (reply4 (ex4_b1 ex4_secret)))] (fst (ex4_b2 ex4_secret)) /\
  s4_status (fst (ex4_b2 ex4_secret)) = S4Completed.
Proof.
  split.
  { eapply hist4_handle with (rnd := ex4_rnd 10) (c := fst (ex4_a2 ex4_secret)); [|vm_compute; reflexivity].
    eapply hist4_handle with (rnd := ex4_rnd 8) (c := fst ex4_start); [|vm_compute; reflexivity].
    eapply hist4_start with (rnd := ex4_rnd 6) (c := ex4_a); [|vm_compute; reflexivity]. apply hist4_new. }
  split; [vm_compute; reflexivity|]. split.
  { eapply hist4_handle with (rnd := ex4_rnd 9) (c := fst (ex4_b1 ex4_secret)); [|vm_compute; reflexivity].
    eapply hist4_handle with (rnd := ex4_rnd 7) (c := ex4_b); [|vm_compute; reflexivity]. apply hist4_new. }
  vm_compute. reflexivity.
Qed.

(* A message that does not crash the client is the expected one and the run goes on, or it ends the run with a
   verdict, or the run is aborted and the client is back at the start; then the peer is told nothing, unless
   the message was itself an abort. *)
Theorem C37_every_message_partial : forall C us them ssid evs c ans rnd t c' r,
  smp4_group C -> smp4_hist C us them ssid evs c ->
  smp4_handle C ans rnd c t = (c', r) -> r <> Panic ->
  (expects4 (s4_state c) (tlv_type t) = true /\ s4_status c' = S4InProgress /\ ~ idle4 c' /\
    exists m, r = Ok (Some m) /\ expects4 (s4_state c') (tlv_type m + 1) = true) \/
  (expects4 (s4_state c) (tlv_type t) = true /\ idle4 c' /\
    (s4_status c' = S4Completed \/ s4_status c' = S4Aborted Differ4)) \/
  (idle4 c' /\ (exists why, s4_status c' = S4Aborted why) /\
   r = Ok (if (tlv_type t =? 6)%N then Some (mkTlv 6 []) else None)).
Proof. intros C us them ssid evs c ans rnd t c' r GO. exact (every_message4 C us them ssid evs c ans rnd t c' r). Qed.
Print Assumptions C37_every_message_partial.

Example C37_ex_unexpected :
  smp4_hist toy ex4_us ex4_them ex4_ssid [Started4 ex4_secret ex4_question ex4_t1] (fst ex4_start) /\
  snd (smp4_handle toy ex4_none (ex4_rnd 8) (fst ex4_start) (mkTlv 5 [])) = Ok None /\
  s4_status (fst (smp4_handle toy ex4_none (ex4_rnd 8) (fst ex4_start) (mkTlv 5 []))) = S4Aborted Error4.
Proof.
  split; [|split; vm_compute; reflexivity].
  eapply hist4_start with (rnd := ex4_rnd 6) (c := ex4_a); [apply hist4_new|vm_compute; reflexivity].
Qed.

(* The full property has no condition "does not crash".  It is false: for every curve there is a message
   that crashes every client that waits for a run to begin. *)
Theorem C37_no_crash_refuted :
  ~ (forall C us them ssid evs c ans rnd t,
       smp4_group C -> smp4_hist C us them ssid evs c -> is_smp4_tlv t = true ->
       snd (smp4_handle C ans rnd c t) <> Panic).
Proof.
  intros H. refine (H toy ex4_us ex4_them ex4_ssid [] ex4_a ex4_none (ex4_rnd 1) (crash_tlv toy)
    toy_smp4_group (hist4_new toy ex4_us ex4_them ex4_ssid) eq_refl _).
  now rewrite (crash4 toy toy_smp4_group).
Qed.
Print Assumptions C37_no_crash_refuted.
Theorem C37_peer_can_crash : forall C ans rnd c, smp4_group C -> idle4 c ->
  exists t, is_smp4_tlv t = true /\ snd (smp4_handle C ans rnd c t) = Panic.
Proof.
  intros C ans rnd c GO I. exists (crash_tlv C). split; [reflexivity|]. now rewrite (crash4 C GO).
Qed.
Print Assumptions C37_peer_can_crash.

(* The user always has a next step: the status tells whether a run is going on; a new one can be started if
   not, and is refused without effect otherwise; and a run can be aborted at any time. *)
Theorem C37_never_stuck : forall C us them ssid evs c rnd secret question x,
  smp4_group C -> smp4_hist C us them ssid evs c -> smp4_secret C us them ssid secret = Ok x ->
  0 <= s4_2 rnd < c_ed_q C -> 0 <= s4_3 rnd < c_ed_q C -> 0 <= s4_r2 rnd < c_ed_q C -> 0 <= s4_r3 rnd < c_ed_q C ->
  usual_1 C rnd ->
  (s4_status c = S4InProgress <-> ~ idle4 c) /\
  (s4_status c = S4InProgress -> smp4_initiate C rnd c secret question = (c, Err SMPInProgress)) /\
  (s4_status c <> S4InProgress ->
     exists c' t, smp4_initiate C rnd c secret question = (c', Ok t) /\ s4_status c' = S4InProgress) /\
  (let '(c', t) := smp4_abort c in idle4 c' /\ s4_status c' = S4Aborted User4 /\ t = mkTlv 6 []).
Proof.
  intros C us them ssid evs c rnd secret question x GO. exact (not_stuck4 C GO us them ssid evs c rnd secret question x).
Qed.
Print Assumptions C37_never_stuck.
Example C37_ex_stuck : usual_1 toy (ex4_rnd 6) /\ (0 <= s4_2 (ex4_rnd 6) < c_ed_q toy) /\ (0 <= s4_3 (ex4_rnd 6) < c_ed_q toy)
  /\ (0 <= s4_r2 (ex4_rnd 6) < c_ed_q toy) /\ (0 <= s4_r3 (ex4_rnd 6) < c_ed_q toy).
Proof. split; [apply ex4_usual|]. repeat apply conj; vm_compute; congruence. Qed.

(** * C51: an abort ends the exchange and is not answered (OTRv4: it is) *)

Theorem C51_v4_refuted :
  ~ (forall C ans rnd c t, tlv_type t = 6%N -> snd (smp4_handle C ans rnd c t) = Ok None).
Proof.
  intros H. specialize (H toy ex4_none (ex4_rnd 1) ex4_a (mkTlv 6 []) eq_refl).
  rewrite abort_answered in H by reflexivity. discriminate H.
Qed.
Print Assumptions C51_v4_refuted.

(* The run is reset, but the abort is answered by an abort, and so two clients never stop. *)
Theorem C51_v4_abort_resets_partial : forall C ans rnd c t, tlv_type t = 6%N ->
  exists c', smp4_handle C ans rnd c t = (c', Ok (Some (mkTlv 6 []))) /\ idle4 c' /\ s4_status c' = S4Aborted User4.
Proof.
  intros C ans rnd c t T. rewrite abort_answered by exact T. eexists. split; [reflexivity|]. split; reflexivity.
Qed.
Print Assumptions C51_v4_abort_resets_partial.
Theorem C51_v4_aborts_forever : forall C n a b t, tlv_type t = 6%N -> keeps_replying C n a b t.
Proof. intros C n a b t. apply ping_pong. Qed.
Print Assumptions C51_v4_aborts_forever.
Example C51_v4_ex : tlv_type (snd (smp4_abort (fst ex4_start))) = 6%N.
Proof. reflexivity. Qed.
