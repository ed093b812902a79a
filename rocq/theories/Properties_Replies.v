(* Property C84: clients do not answer each other for ever. *)
From Verif Require Import Base Types Crypto ToyCrypto Encoding Messages Fragment Protocol Session SpecWire SpecSession
  SessionInvProofs SessionSendProofs SessionRecvProofs SessionExamples SpecReplies RepliesProofs RepliesExamples.
Import SpecSession.
Local Open Scope N_scope.

(** * C84 Clients do not answer each other for ever *)

(* Receiving a payload makes a session send something only if the payload is, or completes, a message that can be parsed. *)
Theorem C84_silent : forall C d h s e p s' out r, history C d h s -> receive C e s p = (s', out, r) -> r <> Panic -> out <> [] ->
  exists b m, completes s p b /\ parse C b = Ok m.
Proof. intros C d h s e p s' out r H R NP. eapply receive_silent; [exact R|exact NP|]. exact (proj1 (history_inv _ _ _ _ H)). Qed.
Print Assumptions C84_silent.

(* A message is answered by at most one message, and that is the next step of a protocol; except that an abort of the
   Socialist Millionaire Protocol in OTRv4 is answered by another. *)
Theorem C84_table : forall C d h s e p s' out r x, history C d h s -> hears C s p x -> receive C e s p = (s', out, r) -> r <> Panic ->
  out = [] \/ exists y, answers_with C s x s' out y /\ (next C x y \/ (abort4 x /\ abort4 y)).
Proof. intros C d h s e p s' out r x H HE R NP. eapply receive_answer; [exact R|exact NP| |exact HE]. exact (proj1 (history_inv _ _ _ _ H)). Qed.
Print Assumptions C84_table.

(* So the answers to a message, the answers to these, and so on, come to an end, whichever clients receive them in whatever
   states.  Missing: the aborts of OTRv4. *)
Theorem C84_partial : forall C x, ~ abort4 x -> dies_out C x.
Proof. exact all_die. Qed.
Print Assumptions C84_partial.

(* The full statement: every answer is the next step. *)
Definition every_answer_is_next : Prop :=
  forall C d h s e p s' out r x, history C d h s -> hears C s p x -> receive C e s p = (s', out, r) -> r <> Panic ->
    out = [] \/ exists y, answers_with C s x s' out y /\ next C x y.
Theorem C84_refuted : ~ every_answer_is_next.
Proof.
  intros F. destruct rp_parts as ((m & M) & OR & NP & NO & NE).
  destruct (F toy xs_bob zb_h zb_s (xs_eb x27 0) rp_p rp_s rp_out rp_r rp_x zb_run rp_hears rp_receive NP) as [E|(y & A & N)]; [contradiction|].
  unfold next in N. cbn [ut_message rp_x] in N. rewrite M in N. unfold answers_with in A.
  destruct (ut_message y) as [t|?|? ?|?|em'] eqn:Y; try contradiction N; [exact (NE _ A)|].
  destruct (em_message em'); try contradiction N. destruct N as (a & b & OA & _ & NR & N6).
  rewrite <- (one_record_fun _ _ _ _ OR OA) in NR. cbn [rp_abort tlv_type] in NR.
  destruct NR as [([X|X] & _)|[(X & _)|[(X & _)|(X & _)]]]; discriminate || now apply X.
Qed.
Print Assumptions C84_refuted.

(* Alice receives an OTRv3 query and answers; the chain of answers ends. *)
Example C84_ex : exists s', history toy xs_alice [] xs_a0 /\ hears toy xs_a0 xs_query3 (mkUtterance (MsgQuery [V3]) []) /\
  receive toy (xs_ea x21 0) xs_a0 xs_query3 = (s', [xs_out ys_x1], Ok UMNone) /\
  ~ abort4 (mkUtterance (MsgQuery [V3]) []).
Proof.
  exists (xs_next ys_x1). split; [constructor|]. split.
  { exists xs_query3. split; [left; split; [vm_compute; reflexivity|reflexivity]|]. split; [vm_compute; reflexivity|discriminate]. }
  split; [vm_compute; reflexivity|].
  intros (em & m & a & E & _). discriminate E.
Qed.
