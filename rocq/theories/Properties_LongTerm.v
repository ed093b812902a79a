(* What the long-term private keys of a host, and the answers of its user, are used for. *)
From Verif Require Import Base BaseLemmas Types Crypto ToyCrypto Encoding Messages Fragment Ratchet DAKE SMP SMP4 Protocol Session SpecSession SessionExamples
  SpecLongTerm LongTermProofs.
From Coq Require Import Lia.
Local Open Scope N_scope.

(** * C93 Long-term private keys are used for nothing but key exchanges *)

(* In any session whatsoever, a call has the same result, hands the same messages to the network and leaves the same session
   behind, whatever the private keys of the host are - unless it receives one of the four messages of a key exchange that have
   to be answered with a signature. *)
Theorem C93_call : forall C es1 es2 s o, (forall t, same_but_private (es1 t) (es2 t)) -> unsigned C s o ->
  call C es1 s o = call C es2 s o.
Proof. exact call_private. Qed.
Print Assumptions C93_call.

(* The same for any sequence of calls: as long as no such message comes, everything that is sent, received, verified and ended
   could have been done by someone without the private keys. *)
Theorem C93_course : forall C l1 l2 s,
  Forall2 (fun a b => snd a = snd b /\ forall t, same_but_private (fst a t) (fst b t)) l1 l2 -> each C (unsigned C) l1 s ->
  play C l1 s = play C l2 s.
Proof. intros C l1 l2 s. exact (play_same C (unsigned C) same_but_private (call_private C) l1 l2 s). Qed.
Print Assumptions C93_course.

(* Nor does what the user would answer to a question play any part, unless a data message comes from a client there is a private
   conversation with. *)
Theorem C93_answer : forall C es1 es2 s o, (forall t, same_but_answer (es1 t) (es2 t)) -> unasked C s o ->
  call C es1 s o = call C es2 s o.
Proof. exact call_answer. Qed.
Print Assumptions C93_answer.

Theorem C93_answer_course : forall C l1 l2 s,
  Forall2 (fun a b => snd a = snd b /\ forall t, same_but_answer (fst a t) (fst b t)) l1 l2 -> each C (unasked C) l1 s ->
  play C l1 s = play C l2 s.
Proof. intros C l1 l2 s. exact (play_same C (unasked C) same_but_answer (call_answer C) l1 l2 s). Qed.
Print Assumptions C93_answer_course.

(* Bob with other private keys, and with another answer *)
Definition lt_private (e : env) : env :=
  mkEnv (ev_message_size e) (option_map (fun k => mkDsaKeypair (dsa_x k + 1) (dsa_pk k)) (ev_dsa e)) (ev_profile e)
    (mkEddsa [x00] (ed_secret (ev_identity e) + 1) (ed_public (ev_identity e))) (ev_answer e) (ev_dh e) (ev_r e) [x01] (ev_km0 e) (ev_km1 e)
    (ev_ack e) (ev_dake e) (ev_ring e) (ev_send e) (ev_smp e) (ev_smp4 e) (ev_fragment e).
Definition lt_answer (e : env) : env :=
  mkEnv (ev_message_size e) (ev_dsa e) (ev_profile e) (ev_identity e) (fun _ => None) (ev_dh e) (ev_r e) (ev_nonce e) (ev_km0 e) (ev_km1 e)
    (ev_ack e) (ev_dake e) (ev_ring e) (ev_send e) (ev_smp e) (ev_smp4 e) (ev_fragment e).
Lemma lt_same e : same_but_private e (lt_private e).
Proof. constructor; try reflexivity. cbn. destruct (ev_dsa e); reflexivity. Qed.
Lemma lt_same_answer e : same_but_answer e (lt_answer e).
Proof. constructor; reflexivity. Qed.
(* a whole message that carries no encoded message, or one of the wanted kind *)
Lemma lt_whole (P : encoded_message -> Prop) s p : match_fragment p = false ->
  (match parse toy p with Ok (MsgEncoded em) => P em | _ => True end) ->
  forall q em, OpReceive p = OpReceive q -> carries toy s q em -> P em.
Proof.
  intros M H q em E (b & CO & PE). injection E as <-. destruct CO as [[_ ->]|(f & a & M' & _)]; [|congruence]. rewrite PE in H. exact H.
Qed.

(* A conversation in OTRv4: Bob reads Alice's text and answers, compares secrets, and ends it; the key makes no difference there,
   but it does when the key exchange is answered. *)
Definition lt_calls : list ((N -> env) * op) :=
  [(xs_eb x27, OpReceive za_text); (xs_eb x29, OpSend 301 xs_hi); (xs_eb x2a, OpStartSmp 301 [x73] []); (xs_eb x28, OpEnd 301)].
Example C93_ex : history toy xs_bob zb_h zb_s /\
  Forall2 (fun a b => snd a = snd b /\ forall t, same_but_private (fst a t) (fst b t)) lt_calls
    (map (fun x => ((fun t => lt_private (fst x t)), snd x)) lt_calls) /\
  each toy (unsigned toy) lt_calls zb_s /\
  map (fun x => match snd x with Ok (AnMessage m) => Some m | _ => None end) (fst (play toy lt_calls zb_s)) =
    [Some (UMConfidential 301 xs_hi []); None; None; Some (UMReset 301)] /\
  (exists em, carries toy xs_b0 (xs_out zs_x1) em /\ asks_signature em) /\
  snd (fst (call toy (fun t => lt_private (xs_eb x54 t)) xs_b0 (OpReceive (xs_out zs_x1)))) <> snd (fst zs_x2).
Proof.
  split; [exact zb_run|]. split; [repeat constructor; apply lt_same|].
  split.
  { split; [|split; [|split; [|split; [|exact I]]]].
    - refine (lt_whole (fun em => ~ asks_signature em) _ za_text _ _); [vm_compute; reflexivity|vm_compute; exact (fun x => x)].
    - intros p em E. discriminate E.
    - intros p em E. discriminate E.
    - intros p em E. discriminate E. }
  split; [vm_compute; reflexivity|].
  split.
  - destruct (parse toy (xs_out zs_x1)) as [[?|?|?|?|em]| |] eqn:P; [vm_compute in P; discriminate P..| |vm_compute in P; discriminate P|vm_compute in P; discriminate P]. exists em.
    split; [exists (xs_out zs_x1); split; [left; split; [vm_compute; reflexivity|reflexivity]|exact P]|].
    vm_compute in P. injection P as <-. exact I.
  - intros X. vm_compute in X. discriminate X.
Qed.
(* Bob's answer plays no part when a message of a key exchange comes, or a text of Alice's to someone without a conversation. *)
Example C93_ex_answer : (forall t, same_but_answer (xs_eb x54 t) (lt_answer (xs_eb x54 t))) /\
  unasked toy xs_b0 (OpReceive (xs_out zs_x1)) /\ unasked toy xs_b0 (OpReceive za_text) /\ unasked toy zb_s (OpSend 301 xs_hi) /\
  (exists p em, p = za_text /\ carries toy zb_s p em /\ in_conversation zb_s em).
Proof.
  split; [intros t; apply lt_same_answer|].
  split; [refine (lt_whole (fun em => ~ in_conversation xs_b0 em) _ (xs_out zs_x1) _ _); [vm_compute; reflexivity|vm_compute; exact (fun x => x)]|].
  split.
  { refine (lt_whole (fun em => ~ in_conversation xs_b0 em) _ za_text _ _); [vm_compute; reflexivity|]. vm_compute. intros (? & ? & ? & ? & X). discriminate X. }
  split; [intros p em E; discriminate E|].
  destruct (parse toy za_text) as [[?|?|?|?|em]| |] eqn:P; [vm_compute in P; discriminate P..| |vm_compute in P; discriminate P|vm_compute in P; discriminate P]. exists za_text, em. split; [reflexivity|].
  split; [exists za_text; split; [left; split; [vm_compute; reflexivity|reflexivity]|exact P]|].
  vm_compute in P. injection P as <-. unfold in_conversation. vm_compute. repeat eexists.
Qed.
