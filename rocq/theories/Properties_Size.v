(* The limit a transport puts on the length of a message. *)
From Verif Require Import Base BaseLemmas Types Crypto ToyCrypto Encoding Messages Fragment Ratchet DAKE SMP SMP4 Protocol Session SpecSession SessionInvProofs SessionSendProofs
  SessionExamples SpecLongTerm SpecSize SizeProofs SizeCrashProofs.
From Coq Require Import Lia.
Local Open Scope N_scope.

(** * C94 The length a transport allows makes no difference but for the cutting of messages *)

(* Two hosts that differ only in the longest message their transport takes: unless one of them crashes, a call leaves the same
   session behind, has the same result, and hands the same texts in the same order to the transport, each of them in one piece
   or in fragments. *)
Theorem C94_call : forall C es1 es2 s o s1 out1 r1 s2 out2 r2, (forall t, same_but_size (es1 t) (es2 t)) ->
  call C es1 s o = (s1, out1, r1) -> call C es2 s o = (s2, out2, r2) -> r1 <> Panic -> r2 <> Panic ->
  s1 = s2 /\ same_texts (se_details s) es1 es2 out1 out2 /\ same_answer (se_details s) es1 es2 r1 r2.
Proof. exact call_size. Qed.
Print Assumptions C94_call.

(* Where one of the two crashes and the other does not, the reason is a text that the other one sends and that cannot be sent
   with this limit. *)
Theorem C94_crash : forall C es1 es2 s o s1 out1 s2 out2 r2, (forall t, same_but_size (es1 t) (es2 t)) ->
  call C es1 s o = (s1, out1, Panic) -> call C es2 s o = (s2, out2, r2) -> r2 <> Panic ->
  exists ps, too_long (se_details s) es1 es2 ps /\ (r2 = Ok (AnPayloads ps) \/ exists a b, out2 = a ++ ps ++ b).
Proof. exact call_size_crash. Qed.
Print Assumptions C94_crash.

(* The same for a sequence of calls, each with limits of its own. *)
Theorem C94_course : forall C d h s l, history C d h s ->
  (forall es1 es2 o, In (es1, es2, o) l -> forall t, same_but_size (es1 t) (es2 t)) ->
  crashless C (left_calls l) s -> crashless C (right_calls l) s ->
  snd (play C (left_calls l) s) = snd (play C (right_calls l) s) /\
  alike d l (fst (play C (left_calls l) s)) (fst (play C (right_calls l) s)).
Proof. intros C d h s l HI. destruct (history_inv C _ _ _ HI) as [SI D]. exact (play_size C d l s SI D). Qed.
Print Assumptions C94_course.

(* Bob in a conversation, with room for 4000 and for 150 bytes, and with too little room *)
Definition sz_env (n : N) (e : env) : env :=
  mkEnv (N.to_nat n) (ev_dsa e) (ev_profile e) (ev_identity e) (ev_answer e) (ev_dh e) (ev_r e) (ev_nonce e) (ev_km0 e) (ev_km1 e)
    (ev_ack e) (ev_dake e) (ev_ring e) (ev_send e) (ev_smp e) (ev_smp4 e) [x0a; x0b; x0c; x0d].
Definition sz_calls : list ((N -> env) * (N -> env) * op) :=
  map (fun '(es, o) => (es, (fun t => sz_env 150 (es t)), o))
    [(xs_eb x27, OpReceive za_text); (xs_eb x29, OpSend 301 xs_hi); (xs_eb x2a, OpStartSmp 301 [x73] []); (xs_eb x28, OpEnd 301)].
Definition sz_counts (x : list bytes * res answer) : nat * nat := (length (fst x), match snd x with Ok (AnPayloads l) => length l | _ => O end).
Example C94_ex : history toy xs_bob zb_h zb_s /\
  (forall es1 es2 o, In (es1, es2, o) sz_calls -> forall t, same_but_size (es1 t) (es2 t)) /\
  crashless toy (left_calls sz_calls) zb_s /\ crashless toy (right_calls sz_calls) zb_s /\
  map sz_counts (fst (play toy (left_calls sz_calls) zb_s)) = [(0, 0); (0, 1); (1, 0); (1, 0)]%nat /\
  map (fun x => Nat.ltb 1 (fst (sz_counts x) + snd (sz_counts x))) (fst (play toy (right_calls sz_calls) zb_s)) = [false; true; true; true].
Proof.
  split; [exact zb_run|]. split.
  { intros es1 es2 o H. cbn in H. decompose [or] H; try contradiction;
      match goal with E : (_, _, _) = _ |- _ => injection E as <- <- <- end; intros t; constructor; reflexivity. }
  split; [cbn [crashless left_calls map sz_calls]; repeat split; try (intros X; vm_compute in X; discriminate X)|].
  split; [cbn [crashless right_calls map sz_calls]; repeat split; try (intros X; vm_compute in X; discriminate X)|].
  split; vm_compute; reflexivity.
Qed.
(* With room for 40 bytes Bob's text cannot be sent. *)
Example C94_ex_crash : (forall t, same_but_size (sz_env 40 (xs_eb x29 t)) (xs_eb x29 t)) /\
  snd (call toy (fun t => sz_env 40 (xs_eb x29 t)) zb_s (OpSend 301 xs_hi)) = Panic /\
  snd (call toy (xs_eb x29) zb_s (OpSend 301 xs_hi)) <> Panic.
Proof.
  split; [intros t; constructor; reflexivity|]. split; [vm_compute; reflexivity|]. intros X. vm_compute in X. discriminate X.
Qed.
