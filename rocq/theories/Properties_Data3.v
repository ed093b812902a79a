(* C16-C20 and the OTRv3 half of C23: data messages.  Only statements, references to their proofs, and
   examples showing that the hypotheses are met. *)
From Verif Require Import Base BaseLemmas Types Crypto ToyCrypto Encoding Messages KeyManager DataV3
  SpecData3 DataV3Proofs History3Proofs Conv3Proofs Data3Examples Data3Lemmas.
From Coq Require Import Lia ZifyN ZifyNat.
Local Open Scope N_scope.

(** * C16: counters *)

(* Of two messages sent under the same key numbers the later one has the larger counter; no counter is
   zero. *)
Theorem C16_counters_increase : forall C our their h k h1 m1 t1 h2 m2 t2 h3,
  history3 C our their h k -> h = h1 ++ Sent3 m1 t1 :: h2 ++ Sent3 m2 t2 :: h3 ->
  same_keys3 m1 m2 -> 0 < ctr3 m1 < ctr3 m2.
Proof. exact counters_never_repeat. Qed.
Print Assumptions C16_counters_increase.

Theorem C16_key_numbers_nonzero : forall C our their h k,
  history3 C our their h k -> forall m text, In (Sent3 m text) h -> d3_sender_keyid m <> 0 /\ d3_receiver_keyid m <> 0.
Proof. exact sent_ids. Qed.
Print Assumptions C16_key_numbers_nonzero.

Example C16_ex :
  history3 toy ex_ta ex_tb ([] ++ Sent3 ex_m1 ex_hi :: [] ++ Sent3 ex_p2 ex_yo :: []) ex_ca2 /\ same_keys3 ex_m1 ex_p2.
Proof.
  split; [|split; reflexivity].
  exists 1, (dh_new toy 17), 1, (dh_public (dh_new toy 29)), 5, 7, ex_a0. split; [exact ex_start|].
  apply (r3_send toy ex_ta ex_tb ex_a0 [Sent3 ex_m1 ex_hi] ex_a1 false ex_yo); [exact ex_run3_2|].
  vm_compute. reflexivity.
Qed.

(** * C17: replay *)

(* Full property: under one pair of keys the counters of accepted messages strictly increase.  Proved:
   from the second accepted message on.  Missing: the first one, see the refutation below.  So a message
   is accepted at most twice. *)
Theorem C17_replay_partial : forall C our their h k h1 m0 a0 t0 h2 m1 a1 t1 h3 m2 a2 t2 h4,
  history3 C our their h k ->
  h = h1 ++ Got3 m0 a0 (Some t0) :: h2 ++ Got3 m1 a1 (Some t1) :: h3 ++ Got3 m2 a2 (Some t2) :: h4 ->
  same_keys3 m0 m1 -> same_keys3 m1 m2 -> ctr3 m1 < ctr3 m2.
Proof. exact replay_bound. Qed.
Print Assumptions C17_replay_partial.

(* Each message that makes a key rotate is accepted a second time, whatever was exchanged before. *)
Theorem C17_replay_accepted : forall C our their h k m auth rnd k' t,
  history3 C our their h k -> decrypt3 C k m auth rnd = (k', Ok t) ->
  own_id k' <> own_id k \/ peer_id k' <> peer_id k ->
  forall rnd', exists k'', decrypt3 C k' m auth rnd' = (k'', Ok t).
Proof. exact replay_accepted. Qed.
Print Assumptions C17_replay_accepted.

Theorem C17_replay_refuted :
  ~ (forall C our their h k h1 m1 a1 t1 h2 m2 a2 t2 h3,
       history3 C our their h k ->
       h = h1 ++ Got3 m1 a1 (Some t1) :: h2 ++ Got3 m2 a2 (Some t2) :: h3 ->
       same_keys3 m1 m2 -> ctr3 m1 < ctr3 m2).
Proof.
  intros H.
  assert (X : ctr3 ex_m2 < ctr3 ex_m2).
  { apply (H toy ex_ta ex_tb ex_run ex_a6 [Sent3 ex_m1 ex_hi] ex_m2 (ex_auth_b ex_m2) ex_yo [Sent3 ex_m3 ex_hi] ex_m2
             (ex_auth_b ex_m2) ex_yo [Got3 ex_m4 (ex_auth_b ex_m4) (Some ex_yo); Sent3 ex_m5 ex_hi]).
    - exact ex_history.
    - reflexivity.
    - split; reflexivity. }
  lia.
Qed.
Print Assumptions C17_replay_refuted.

Example C17_ex_rotates :
  history3 toy ex_ta ex_tb [Sent3 ex_m1 ex_hi] ex_a1 /\
  decrypt3 toy ex_a1 ex_m2 (ex_auth_b ex_m2) 23 = (ex_a2, Ok ex_yo) /\ own_id ex_a2 <> own_id ex_a1.
Proof. split; [exact ex_history1|]. split; [exact ex_accept2|discriminate]. Qed.
(* three messages under the same keys, as the partial theorem asks *)
Definition ex_q2 : data3 := Eval vm_compute in fst (ex_send ex_ta ex_tb ex_ca2 ex_hi).
Definition ex_auth_a (m : data3) : bytes := encode_authenticator_data ex_ta ex_tb m.
Definition ex_three : list event3 :=
  [Got3 ex_p1 (ex_auth_a ex_p1) (Some ex_hi); Got3 ex_p2 (ex_auth_a ex_p2) (Some ex_yo);
   Got3 ex_q2 (ex_auth_a ex_q2) (Some ex_hi)].
Example C17_ex_three : exists k,
  history3 toy ex_tb ex_ta ex_three k /\ same_keys3 ex_p1 ex_p2 /\ same_keys3 ex_p2 ex_q2.
Proof.
  eexists. split; [|split; split; reflexivity].
  exists 1, (dh_new toy 29), 1, (dh_public (dh_new toy 17)), 11, 13, ex_b0. split; [vm_compute; reflexivity|].
  apply (r3_accept toy ex_tb ex_ta ex_b0 (firstn 2 ex_three) ex_cb2 _ _ 3); [|vm_compute; reflexivity].
  apply (r3_accept toy ex_tb ex_ta ex_b0 (firstn 1 ex_three) ex_b1 _ _ 43); [|vm_compute; reflexivity].
  apply (r3_accept toy ex_tb ex_ta ex_b0 [] ex_b0 _ _ 19); [constructor|vm_compute; reflexivity].
Qed.

(** * C18: revealing MAC keys *)

(* A revealed key was the receiving MAC key of a message received earlier, and since then at least one of
   the parties' keys was replaced. *)
Theorem C18_not_early : forall C our their h k h1 m text h2,
  history3 C our their h k -> h = h1 ++ Sent3 m text :: h2 ->
  exists keys, reveals3 m keys /\
    forall mk, In mk keys ->
      exists ha m' auth' t' hb k1,
        h1 = ha ++ Got3 m' auth' t' :: hb /\ history3 C our their ha k1 /\ authentic3 C k1 m' auth' mk /\
        own_id k1 <= d3_sender_keyid m /\ peer_id k1 <= d3_receiver_keyid m /\
        (own_id k1 <> d3_sender_keyid m \/ peer_id k1 <> d3_receiver_keyid m).
Proof. exact reveals_not_early. Qed.
Print Assumptions C18_not_early.

(* None is lost: the key of an accepted message has been revealed by the time a message was sent after
   the next rotation. *)
Theorem C18_none_lost : forall C our their h0 k m auth rnd k1 t mk h k2 ig text m2 k3,
  history3 C our their h0 k ->
  decrypt3 C k m auth rnd = (k1, Ok t) -> authentic3 C k m auth mk ->
  run3 C our their k1 h k2 ->
  own_id k2 <> own_id k \/ peer_id k2 <> peer_id k ->
  encrypt3 C our their k2 ig text = Ok (m2, k3) ->
  exists m' text' keys, In (Sent3 m' text') (h ++ [Sent3 m2 text]) /\ reveals3 m' keys /\ In mk keys.
Proof. exact reveals_none_lost. Qed.
Print Assumptions C18_none_lost.

(* "Only after it is retired" fails.  Whenever a message rotates a key, the MAC key that verified it is
   published in the very next message although the client still accepts messages under it: whoever sees
   that message can make the client accept any ciphertext. *)
Theorem C18_revealed_key_still_accepted : forall C our their h k m auth rnd k1 t ig text reply k2,
  history3 C our their h k -> decrypt3 C k m auth rnd = (k1, Ok t) ->
  own_id k1 <> own_id k \/ peer_id k1 <> peer_id k ->
  encrypt3 C our their k1 ig text = Ok (reply, k2) ->
  exists mk keys enc, reveals3 reply keys /\ In mk keys /\
    forall m' auth' rnd',
      same_keys3 m' m -> d3_dh_y m' = d3_dh_y m -> length (d3_ctr m') = 8%nat -> 0 < ctr3 m' ->
      d3_authenticator m' = hmac_sha1 C mk auth' -> any_nonzero (d3_authenticator m') = true ->
      exists k3, decrypt3 C k2 m' auth' rnd'
                 = (k3, Ok (aes_crypt C enc (nonce_of_ctr (d3_ctr m')) (d3_encrypted m'))).
Proof. exact revealed_still_valid. Qed.
Print Assumptions C18_revealed_key_still_accepted.

Theorem C18_retired_refuted :
  ~ (forall C our their h m text k keys mk,
       history3 C our their (h ++ [Sent3 m text]) k -> reveals3 m keys -> In mk keys ->
       forall m' auth', ~ authentic3 C k m' auth' mk).
Proof.
  intros H. destruct ex_revealed_twice as [R1 _].
  apply (H toy ex_ta ex_tb [Sent3 ex_m1 ex_hi; Got3 ex_m2 (ex_auth_b ex_m2) (Some ex_yo)] ex_m3 ex_hi ex_a3 [ex_mac] ex_mac)
    with (m' := ex_m2) (auth' := ex_auth_b ex_m2); [|exact R1|left; reflexivity|].
  - exists 1, (dh_new toy 17), 1, (dh_public (dh_new toy 29)), 5, 7, ex_a0. split; [exact ex_start|].
    apply (r3_send toy ex_ta ex_tb ex_a0 _ ex_a2 false ex_hi); [|exact ex_reply3].
    apply (r3_accept toy ex_ta ex_tb ex_a0 [Sent3 ex_m1 ex_hi] ex_a1 _ _ 23); [exact ex_run3_2|exact ex_accept2].
  - exists (mkDh 5 32), 401, (firstn 16 (sha1 toy (x01 :: write_mpi (modpow 401 5 503)))).
    repeat split; try discriminate; try (vm_compute; reflexivity).
    + left. reflexivity.
    + right. reflexivity.
Qed.
Print Assumptions C18_retired_refuted.

(* "Once" fails as well, when a message is replayed. *)
Theorem C18_once_refuted :
  ~ (forall C our their h k h1 m1 t1 h2 m2 t2 h3 keys1 keys2 mk,
       history3 C our their h k -> h = h1 ++ Sent3 m1 t1 :: h2 ++ Sent3 m2 t2 :: h3 ->
       reveals3 m1 keys1 -> reveals3 m2 keys2 -> In mk keys1 -> ~ In mk keys2).
Proof.
  intros H. destruct ex_revealed_twice as [R1 R2].
  eapply (H toy ex_ta ex_tb ex_run ex_a6
            [Sent3 ex_m1 ex_hi; Got3 ex_m2 (ex_auth_b ex_m2) (Some ex_yo)] ex_m3 ex_hi
            [Got3 ex_m2 (ex_auth_b ex_m2) (Some ex_yo); Got3 ex_m4 (ex_auth_b ex_m4) (Some ex_yo)] ex_m5 ex_hi []).
  - exact ex_history.
  - reflexivity.
  - exact R1.
  - exact R2.
  - left. reflexivity.
  - left. reflexivity.
Qed.
Print Assumptions C18_once_refuted.

Example C18_ex :
  history3 toy ex_ta ex_tb [Sent3 ex_m1 ex_hi] ex_a1 /\
  decrypt3 toy ex_a1 ex_m2 (ex_auth_b ex_m2) 23 = (ex_a2, Ok ex_yo) /\ own_id ex_a2 <> own_id ex_a1 /\
  authentic3 toy ex_a1 ex_m2 (ex_auth_b ex_m2) ex_mac /\
  encrypt3 toy ex_ta ex_tb ex_a2 false ex_hi = Ok (ex_m3, ex_a3) /\ reveals3 ex_m3 [ex_mac].
Proof.
  split; [exact ex_history1|]. split; [exact ex_accept2|]. split; [discriminate|].
  split; [|split; [exact ex_reply3|apply ex_revealed_twice]].
  exists (mkDh 5 32), 401, (firstn 16 (sha1 toy (x01 :: write_mpi (modpow 401 5 503)))).
  repeat split; try discriminate; try (vm_compute; reflexivity).
  - right. reflexivity.
  - left. reflexivity.
Qed.

(** * C19: key window *)

Theorem C19_window : forall C k m auth rnd k' t,
  decrypt3 C k m auth rnd = (k', Ok t) ->
  (exists mk, authentic3 C k m auth mk) /\
  (d3_receiver_keyid m = own_id k \/ d3_receiver_keyid m = own_id k + 1) /\
  (d3_sender_keyid m = peer_id k \/ d3_sender_keyid m + 1 = peer_id k) /\
  own_id k' = d3_receiver_keyid m /\ peer_id k' = d3_sender_keyid m + 1 /\
  pr_slot (km_theirs k') (peer_id k') = d3_dh_y m.
Proof. exact key_window. Qed.
Print Assumptions C19_window.

(* Whatever arrives, accepted or not: numbers advance by at most one, the key in use under a number
   stays the key under that number. *)
Theorem C19_keys_never_change : forall C k m auth rnd k' r,
  decrypt3 C k m auth rnd = (k', r) -> r <> Panic ->
  (own_id k' = own_id k \/ own_id k' = own_id k + 1) /\
  (peer_id k' = peer_id k \/ peer_id k' = peer_id k + 1) /\
  kr_slot (km_ours k') (own_id k') = kr_slot (km_ours k) (own_id k') /\
  pr_slot (km_theirs k') (peer_id k) = pr_slot (km_theirs k) (peer_id k).
Proof. exact keys_never_change. Qed.
Print Assumptions C19_keys_never_change.

Theorem C19_never_zero : forall C our their h k,
  history3 C our their h k -> own_id k <> 0 /\ peer_id k <> 0.
Proof. exact ids_nonzero. Qed.
Print Assumptions C19_never_zero.

Example C19_ex : decrypt3 toy ex_a1 ex_m2 (ex_auth_b ex_m2) 23 = (ex_a2, Ok ex_yo)
  /\ own_id ex_a1 = 1 /\ own_id ex_a2 = 2 /\ history3 toy ex_ta ex_tb [Sent3 ex_m1 ex_hi] ex_a1.
Proof. split; [exact ex_accept2|]. split; [reflexivity|]. split; [reflexivity|exact ex_history1]. Qed.

(** * C20: conversations stay in sync *)

(* Whatever the parties send, and whatever the network drops: what is delivered is what was sent. *)
Theorem C20_delivered_exactly : forall C ta tb, dh_group_ok C ->
  forall s0 os s a m sent got,
  conversation3 C ta tb s0 os s -> In (Delivered a m sent got) os -> got = sent.
Proof. exact conversation_exact. Qed.
Print Assumptions C20_delivered_exactly.

(* Full property: every message that arrives is delivered.  Proved: it is, unless its counter is not
   larger than the last one the receiver saw.  Missing: that case, see below.  (Key numbers that reach
   2^32-1 and a random number that is zero crash the client.) *)
Theorem C20_arrival_partial : forall C ta tb, dh_group_ok C ->
  forall s0 os s m text rest rnd,
  conversation3 C ta tb s0 os s -> rnd <> 0 ->
  own_id (cv_a s) < 4294967295 -> own_id (cv_b s) < 4294967295 ->
  (cv_ab s = (m, text) :: rest ->
   exists k, (be_val (km_their_ctr (cv_b s)) < ctr3 m /\
              decrypt3 C (cv_b s) m (encode_authenticator_data ta tb m) rnd = (k, Ok text)) \/
             (ctr3 m <= be_val (km_their_ctr (cv_b s)) /\ exists e,
              decrypt3 C (cv_b s) m (encode_authenticator_data ta tb m) rnd = (k, Err e))) /\
  (cv_ba s = (m, text) :: rest ->
   exists k, (be_val (km_their_ctr (cv_a s)) < ctr3 m /\
              decrypt3 C (cv_a s) m (encode_authenticator_data tb ta m) rnd = (k, Ok text)) \/
             (ctr3 m <= be_val (km_their_ctr (cv_a s)) /\ exists e,
              decrypt3 C (cv_a s) m (encode_authenticator_data tb ta m) rnd = (k, Err e))).
Proof. exact conversation_arrival. Qed.
Print Assumptions C20_arrival_partial.

(* When the parties take turns, one message each, nothing is ever refused. *)
Theorem C20_turn_taking : forall C ta tb, dh_group_ok C ->
  forall s0 os s a,
  conversation3 C ta tb s0 os s -> turns3 a os -> forall d m sent, ~ In (Rejected d m sent) os.
Proof. exact turn_taking. Qed.
Print Assumptions C20_turn_taking.

(* The full property fails without any loss: A sends twice, B answers, A's next message is refused. *)
Theorem C20_in_sync_refuted :
  ~ (forall C ta tb, dh_group_ok C -> forall s0 os s,
       conversation3 C ta tb s0 os s -> (forall a, ~ In (Losing a) os) ->
       forall a m sent, ~ In (Rejected a m sent) os).
Proof.
  intros H. eapply (H toy ex_ta ex_tb toy_group_ok _ _ _ ex_conversation).
  - intros a I. cbn in I. repeat (destruct I as [I|I]; [discriminate|]). exact I.
  - cbn. do 7 right. left. reflexivity.
Qed.
Print Assumptions C20_in_sync_refuted.

Example C20_ex_turns : conversation3 toy ex_ta ex_tb ex_c0 ex_turns (mkConv3 ex_a3 ex_b3 [] []) /\
  turns3 false ex_turns /\ dh_group_ok toy.
Proof. split; [exact ex_turns_conversation|]. split; [exact ex_turns3|exact toy_group_ok]. Qed.
Example C20_ex_delivered : In (Delivered true ex_p2 ex_yo ex_yo) ex_conv.
Proof. cbn. do 3 right. left. reflexivity. Qed.

(** * C23: unauthentic messages, OTRv3 *)

Theorem C23_v3_no_effect : forall C k m auth rnd k' r,
  decrypt3 C k m auth rnd = (k', r) -> r <> Panic -> (forall mk, ~ authentic3 C k m auth mk) ->
  k' = k /\ exists e, r = Err e.
Proof. exact unauthentic_no_effect. Qed.
Print Assumptions C23_v3_no_effect.

(* a flipped bit in the ciphertext *)
Definition ex_forged : data3 :=
  mkData3 false (d3_sender_keyid ex_m2) (d3_receiver_keyid ex_m2) (d3_dh_y ex_m2) (d3_ctr ex_m2)
    [x00; x01; x02] (d3_authenticator ex_m2) (d3_revealed ex_m2).
Example C23_v3_ex :
  decrypt3 toy ex_a1 ex_forged (ex_auth_b ex_forged) 23 = (ex_a1, Err CryptographicViolation) /\
  forall mk, ~ authentic3 toy ex_a1 ex_forged (ex_auth_b ex_forged) mk.
Proof.
  split; [vm_compute; reflexivity|].
  intros mk (x & y & enc & (_ & _ & ->) & (_ & _ & ->) & (_ & -> & ->) & A & _).
  vm_compute in A. discriminate.
Qed.
