(* Property C85: the order of the hash maps makes no difference. *)
From Verif Require Import Base Types Crypto ToyCrypto Encoding Messages Protocol Session SpecSession SessionProofs SessionInvProofs SessionSendProofs
  SessionExamples Account SpecAccount SpecOrder OrderProofs.
From Coq Require Import Sorting.Permutation.
Local Open Scope N_scope.

(** * C85 The order in which clients and sessions are kept makes no difference *)

(* A call on a session whose clients are in another order gives the same answer (or crashes too), sends the same messages
   (expire: with the clients in another order), and leads to the same session up to the order of the clients. *)
Theorem C85_call : forall C d h s s2 es o s' out r, history C d h s -> reordered s s2 -> call C es s o = (s', out, r) ->
  exists s2' out2, call C es s2 o = (s2', out2, r) /\ reordered s' s2' /\
    match o with OpExpire _ => mixed out out2 | _ => out = out2 end.
Proof.
  intros C d h s s2 es o s' out r H. apply call_order. exact (si_nodup _ (proj1 (history_inv _ _ _ _ H))).
Qed.
Print Assumptions C85_call.

(* So whatever happens during a run in which the order changes at any time also happens in a run in which it does not:
   every property of the histories of sessions holds for these runs as well. *)
Theorem C85_history : forall C d h s, shuffled C (session_new d) h s ->
  exists h' s', history C d h' s' /\ Forall2 same_event h h' /\ reordered s' s.
Proof. exact shuffled_history. Qed.
Print Assumptions C85_history.

(* What can be asked about a session does not depend on the order either. *)
Theorem C85_observed : forall C d h s s2, history C d h s -> reordered s s2 ->
  (forall t, ses_status s2 t = ses_status s t /\ ses_ssid s2 t = ses_ssid s t) /\ Permutation (ses_instances s) (ses_instances s2).
Proof.
  intros C d h s s2 H R. pose proof (si_nodup _ (proj1 (history_inv _ _ _ _ H))) as ND. split.
  - intros t. unfold ses_status, ses_ssid. now rewrite (reordered_get _ _ t ND R).
  - unfold ses_instances. apply filter_perm, Permutation_map. exact (proj2 (proj2 R)).
Qed.
Print Assumptions C85_observed.

(* The same for an account that starts without sessions. *)
Theorem C85_account : forall C a0 h a, ac_sessions a0 = [] -> shuffled_account C a0 h a ->
  exists h' a', account_run C a0 h' a' /\ Forall2 same_account_event h h' /\ reordered_account a' a.
Proof. exact shuffled_account_history. Qed.
Print Assumptions C85_account.

(* Alice's session after the exchange with Bob, and the same with its two clients swapped. *)
Definition od_s : session := mkSession (se_details ya_s) (rev (se_instances ya_s)) (se_tagged ya_s).
Example C85_ex : history toy xs_alice ya_h ya_s /\ reordered ya_s od_s /\ map fst (se_instances ya_s) = [0; 400] /\
  map fst (se_instances od_s) = [400; 0] /\ shuffled toy (session_new xs_alice) ya_h od_s.
Proof.
  assert (R : reordered ya_s od_s). { split; [reflexivity|]. split; [reflexivity|]. apply Permutation_rev. }
  split; [exact ya_run|]. split; [exact R|]. split; [reflexivity|]. split; [reflexivity|].
  eapply shuffled_order; [|exact R]. apply run_shuffled, ya_run.
Qed.
