(* The options of a policy about unencrypted text. *)
From Verif Require Import Base BaseLemmas Types Crypto ToyCrypto Encoding Messages Fragment Ratchet DAKE SMP SMP4 Protocol Session SpecSession SessionInvProofs SessionSendProofs
  SessionExamples SpecLongTerm SpecSize SpecPolicy PolicyProofs.
Local Open Scope N_scope.

(** * C95 What a policy says about unencrypted text matters to unencrypted text alone *)

(* Whether encryption is required, whether a whitespace tag is added, and whether a tag or an error message starts an exchange:
   a call that neither sends text outside of a private conversation nor makes unencrypted text or an error message available
   hands the same messages to the network, returns the same and changes the session in the same way, whatever these options
   say. *)
Theorem C95_call : forall C p es s o s' out r, same_versions p (de_policy (se_details s)) -> ~ in_the_clear C s o ->
  call C es s o = (s', out, r) -> call C es (under p s) o = (under p s', out, r).
Proof. exact call_policy. Qed.
Print Assumptions C95_call.

(* The same for a sequence of such calls. *)
Theorem C95_course : forall C p d h s l, history C d h s -> same_versions p (de_policy d) ->
  each C (fun s o => ~ in_the_clear C s o) l s -> crashless C l s ->
  play C l (under p s) = (fst (play C l s), under p (snd (play C l s))).
Proof.
  intros C p d h s l HI SV. destruct (history_inv C _ _ _ HI) as [SI D]. apply play_policy; [exact SI|]. rewrite D. exact SV.
Qed.
Print Assumptions C95_course.

(* Bob, in a conversation, receives and sends a text, starts SMP, ends the conversation; under the opposite options *)
Definition po_opposite (p : policy) : policy :=
  mkPolicy (allow_v3 p) (allow_v4 p) (negb (require_encryption p)) (negb (send_whitespace_tag p)) (negb (whitespace_start_ake p)) (negb (error_start_ake p)).
Definition po_calls : list ((N -> env) * op) :=
  [(xs_eb x27, OpReceive za_text); (xs_eb x29, OpSend 301 xs_hi); (xs_eb x2a, OpStartSmp 301 [x73] []); (xs_eb x28, OpEnd 301)].
Example C95_ex : history toy xs_bob zb_h zb_s /\ same_versions (po_opposite (de_policy xs_bob)) (de_policy xs_bob) /\
  each toy (fun s o => ~ in_the_clear toy s o) po_calls zb_s /\ crashless toy po_calls zb_s /\
  map (fun x => (length (fst x), match snd x with Ok (AnPayloads l) => length l | _ => O end)) (fst (play toy po_calls zb_s)) = [(0, 0); (0, 1); (1, 0); (1, 0)]%nat /\
  (* text in the clear is another matter: after the end of the conversation *)
  snd (call toy (xs_eb x29) (under (po_opposite (de_policy xs_bob)) (snd (play toy po_calls zb_s))) (OpSend 301 xs_hi)) <>
  snd (call toy (xs_eb x29) (snd (play toy po_calls zb_s)) (OpSend 301 xs_hi)).
Proof.
  split; [exact zb_run|]. split; [split; reflexivity|]. split.
  { cbn [each po_calls]. repeat split.
    - intros (b & m & [[_ ->]|(f & a & MF & _)] & P & X); [|vm_compute in MF; discriminate MF]. destruct m; try contradiction; vm_compute in P; discriminate P.
    - intros X. vm_compute in X. discriminate X.
    - intros [].
    - intros []. }
  split; [cbn [crashless po_calls]; repeat split; intros X; vm_compute in X; discriminate X|].
  split; [vm_compute; reflexivity|]. intros X. vm_compute in X. discriminate X.
Qed.
