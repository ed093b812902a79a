(* Theorems about conversations that one side has lost. *)
From Verif Require Import Base Types Crypto ToyCrypto Encoding KeyManager SpecData3 Data3Lemmas DAKE Protocol Session SpecSession SessionExamples SpecNet
  NetExamples Net4Examples SpecStart SpecRecover RecoverProofs RecoverExamples.
Local Open Scope N_scope.

(** * C87: a conversation that one side has lost begins anew with the next message *)

(* OTRv3.  The user of the lost side is told that a message was unreadable, the user of the other side that
   it was not read.  The other side then sends a query message by itself, and if the clients go through the
   key exchange that it starts, both are in the same encrypted session again. *)
Theorem C87_v3 : forall C d d' s n text s' n' at_n at_s out,
  dh_group_ok C -> converses3 C d d' s -> preferred d V3 -> error_start_ake (de_policy d) = true ->
  forgotten C d' (de_tag d) n -> speaks_to C (de_tag d') text s n s' n' at_n at_s out ->
  (exists k, at_n = answered k (Err (UnreadableMessage (de_tag d)))) /\ at_s = [Ok (UMError UNREADABLE_TEXT)] /\
  ses_query s' = (s', out, Ok tt) /\
  forall y : exchange C s' n', honest3 C y ->
    x_p0 y = out /\ connected (x_sa2 y) (x_sb3 y) /\
    x_r4 y = answered (length (x_p3 y)) (Ok (UMSessionStarted (de_tag d'))) /\
    x_r5 y = answered (length (x_p4 y)) (Ok (UMSessionStarted (de_tag d))).
Proof. exact recovers3. Qed.
Print Assumptions C87_v3.

(* OTRv4: likewise, if the lost side has not answered a query message since (see C56). *)
Theorem C87_v4 : forall C d d' s n text s' n' at_n at_s out,
  converses4 C d d' s -> preferred d V4 -> error_start_ake (de_policy d) = true ->
  forgotten C d' (de_tag d) n -> in_dake (entry 0 (se_instances n)) = DakeInitial ->
  speaks_to C (de_tag d') text s n s' n' at_n at_s out ->
  (exists k, at_n = answered k (Err (UnreadableMessage (de_tag d)))) /\ at_s = [Ok (UMError UNREADABLE_TEXT)] /\
  ses_query s' = (s', out, Ok tt) /\
  forall y : exchange C s' n', honest4 C d d' (x_e0 y) (x_e1 y) (x_e2 y) ->
    x_p0 y = out /\ connected (x_sa2 y) (x_sb3 y) /\
    x_r3 y = answered (length (x_p2 y)) (Ok (UMSessionStarted (de_tag d))) /\
    x_r4 y = answered (length (x_p3 y)) (Ok (UMSessionStarted (de_tag d'))).
Proof. exact recovers4. Qed.
Print Assumptions C87_v4.

(* OTRv3: without the policy to start a key exchange on an error message, the users are told the same, and nothing
   else happens. *)
Theorem C87_v3_quiet : forall C d d' s n text s' n' at_n at_s out,
  dh_group_ok C -> converses3 C d d' s -> error_start_ake (de_policy d) = false ->
  forgotten C d' (de_tag d) n -> speaks_to C (de_tag d') text s n s' n' at_n at_s out ->
  (exists k, at_n = answered k (Err (UnreadableMessage (de_tag d)))) /\ at_s = [Ok (UMError UNREADABLE_TEXT)] /\ out = [] /\
  status_of n' (de_tag d) = status_of n (de_tag d).
Proof. exact stays_lost3. Qed.
Print Assumptions C87_v3_quiet.

(* Bob's application starts again after "hi" and "yo"; Alice says "hi" in small fragments. *)
Example C87_ex3 : dh_group_ok toy /\ converses3 toy ns_alice ns_bob (li_a ns_l4) /\ preferred ns_alice V3 /\
  error_start_ake (de_policy ns_alice) = true /\ forgotten toy ns_bob 301 ns_b0 /\
  speaks_to toy 400 xs_hi (li_a ns_l4) ns_b0 rc_a rc_b (snd rc_lost) (snd rc_told) (snd (fst rc_told)) /\
  (1 < length (snd rc_lost))%nat /\ honest3 toy rc_x.
Proof.
  split; [exact toy_group_ok|]. split; [exact rc_converses|].
  split; [right; split; [discriminate|split; reflexivity]|]. split; [reflexivity|]. split; [exact rc_forgotten|].
  split; [exact rc_speaks|]. split; [vm_compute; repeat constructor|exact rc_honest].
Qed.
(* Bob's application starts again after "hi"; Alice says "hi" once more. *)
Example C87_ex4 : converses4 toy xs_alice xs_bob (li_a nf_l2) /\ preferred xs_alice V4 /\
  error_start_ake (de_policy xs_alice) = true /\ forgotten toy xs_bob 301 xs_b0 /\ in_dake (entry 0 (se_instances xs_b0)) = DakeInitial /\
  speaks_to toy 400 xs_hi (li_a nf_l2) xs_b0 rd_a rd_b (snd rd_lost) (snd rd_told) (snd (fst rd_told)) /\
  honest4 toy xs_alice xs_bob (x_e0 rd_x) (x_e1 rd_x) (x_e2 rd_x).
Proof.
  split; [exact rd_converses|].
  split; [left; split; reflexivity|]. split; [reflexivity|]. split; [exact rd_forgotten|]. split; [reflexivity|].
  split; [exact rd_speaks|exact rd_honest].
Qed.
(* Alice has another policy, and Bob's application starts again at once. *)
Example C87_ex_quiet : dh_group_ok toy /\ converses3 toy rq_alice ns_bob (x_sa2 rq_x) /\ error_start_ake (de_policy rq_alice) = false /\
  forgotten toy ns_bob 301 ns_b0 /\
  speaks_to toy 400 xs_hi (x_sa2 rq_x) ns_b0 (fst (fst rq_told)) (fst (fst rq_lost)) (snd rq_lost) (snd rq_told) (snd (fst rq_told)).
Proof.
  split; [exact toy_group_ok|]. split; [exact rq_converses|]. split; [reflexivity|]. split; [exact rc_forgotten|exact rq_speaks].
Qed.
