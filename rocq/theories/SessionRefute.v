(* Histories of the toy clients that contradict the full statement of some properties. *)
From Coq Require Import Lia.
From Verif Require Import Base BaseLemmas Types Crypto ToyCrypto Encoding Messages Fragment SpecFragment KeyManager DataV3
  Ratchet DataV4 AKE AKELemmas DAKE DAKEExamples SMP SMP4 Protocol Session SpecSession SessionExamples.
Local Open Scope N_scope.

(* an OTRv3-only policy *)
Definition xs_three : details := mkDetails (mkPolicy true false false true true true) 301 [x61] [x62].

(** C40: the peer wrote unencrypted text, the tag is still sent *)
Definition r40_s := Eval vm_compute in
  xs_end (replay toy xs_a0 [] [(xs_ea x21, OpReceive xs_hi); (xs_ea x21, OpSend 0 xs_hi)]).
Lemma r40_run : history toy xs_alice (fst r40_s) (snd r40_s).
Proof.
  apply (replay_run toy xs_a0 [(xs_ea x21, OpReceive xs_hi); (xs_ea x21, OpSend 0 xs_hi)] xs_a0 []); [constructor|].
  vm_compute. reflexivity.
Qed.
Lemma tag_after_plaintext :
  ~ (forall C d h1 e1 h2 e2 s, history C d (h1 ++ e1 :: h2 ++ [e2]) s -> got_plaintext e1 -> ~ sent_tagged e2).
Proof.
  intros H. refine (H toy xs_alice [] _ [] _ (snd r40_s) r40_run _ _).
  - exists xs_hi, xs_hi. auto.
  - exists 0, xs_hi, V4. split; reflexivity.
Qed.

(** C41: initiate ignores the policy *)
Definition r41_out := Eval vm_compute in call toy (xs_ea x14) (session_new xs_three) (OpInitiate V4 0).
Lemma initiate_any_version :
  ~ (forall C d h s es v t s' out r, history C d h s -> enabled d ->
       call C es s (OpInitiate v t) = (s', out, r) -> out <> [] -> allowed d v).
Proof.
  intros H. specialize (H toy xs_three [] (session_new xs_three) (xs_ea x14) V4 0).
  assert (allowed xs_three V4); [|discriminate].
  eapply H; [constructor|left; reflexivity| |].
  - exact (eq_refl r41_out <: call toy (xs_ea x14) (session_new xs_three) (OpInitiate V4 0) = r41_out).
  - discriminate.
Qed.

(** C42: a fragment without sender *)
Definition r42_f : fragment := mkFragment V3 [x00; x00; x00; x00] 0 0 1 1 xs_query3.
Definition r42_out := Eval vm_compute in receive toy (xs_ea x21 0) xs_a0 (fragment_text r42_f).
Lemma senderless_fragment :
  ~ (forall C d h s e f s' out r, history C d h s -> enabled d ->
       (fr_version f = V3 \/ fr_version f = V4) -> frag_typed f -> fr_payload f <> [] ->
       Forall fragment_char (fr_payload f) -> 1 <= fr_part f <= fr_total f -> fr_sender f = 0 ->
       receive C e s (fragment_text f) = (s', out, r) -> r <> Panic -> s' = s /\ out = []).
Proof.
  intros H. specialize (H toy xs_alice [] xs_a0 (xs_ea x21 0) r42_f).
  destruct (H (fst (fst r42_out)) (snd (fst r42_out)) (snd r42_out)) as [_ X].
  - constructor.
  - right. reflexivity.
  - now left.
  - repeat split.
  - discriminate.
  - cbn [r42_f fr_payload]. unfold xs_query3. unfold fragment_char.
    repeat (constructor; [cbn; intuition (discriminate || lia)|]). constructor.
  - vm_compute. split; discriminate.
  - reflexivity.
  - vm_compute. reflexivity.
  - discriminate.
  - discriminate X.
Qed.

(** C43: initiate with an illegal tag, and an assertion that fails *)
Definition r43_s := Eval vm_compute in xs_end (replay toy xs_a0 [] [(xs_ea x21, OpInitiate V3 5)]).
Lemma r43_run : history toy xs_alice (fst r43_s) (snd r43_s).
Proof.
  apply (replay_run toy xs_a0 [(xs_ea x21, OpInitiate V3 5)] xs_a0 []); [constructor|]. vm_compute. reflexivity.
Qed.
Lemma illegal_listed : ~ (forall C d h s t, history C d h s -> In t (ses_instances s) -> 256 <= t).
Proof.
  intros H. specialize (H toy xs_alice _ _ 5 r43_run). assert (256 <= 5); [apply H; vm_compute; auto|].
  now vm_compute in H0.
Qed.
Lemma receive_crashes : ~ (forall C d h s e p, history C d h s -> enabled d -> snd (receive C e s p) <> Panic).
Proof.
  intros H. apply (H toy xs_alice wa_h wa_s (xs_ea x29 0) wa_signature wa_run (proj1 xs_enabled)).
  vm_compute. reflexivity.
Qed.

(** C44: a text is lost *)
Definition r44_p : bytes := Eval vm_compute in whitespace_tag V4 ++ xs_hi.
Definition r44_s := Eval vm_compute in xs_end (replay toy xs_a0 [] [(xs_ea x14, OpReceive xs_query4)]).
Lemma r44_run : history toy xs_alice (fst r44_s) (snd r44_s).
Proof.
  apply (replay_run toy xs_a0 [(xs_ea x14, OpReceive xs_query4)] xs_a0 []); [constructor|]. vm_compute. reflexivity.
Qed.
Definition r44_out := Eval vm_compute in receive toy (xs_ea x21 0) (snd r44_s) r44_p.
Lemma text_lost :
  ~ (forall C d h s e p b vs c s' out r, history C d h s -> enabled d -> completes s p b ->
       parse C b = Ok (MsgTagged vs c) -> receive C e s p = (s', out, r) -> r <> Panic ->
       r = Ok (UMPlaintext c) \/ r = Ok (UMWarningUnencrypted c)).
Proof.
  intros H. specialize (H toy xs_alice (fst r44_s) (snd r44_s) (xs_ea x21 0) r44_p r44_p [V4] xs_hi
    (fst (fst r44_out)) (snd (fst r44_out)) (snd r44_out) r44_run (proj1 xs_enabled)).
  destruct H as [H|H]; [left; split; reflexivity|vm_compute; reflexivity|vm_compute; reflexivity|discriminate|discriminate H|discriminate H].
Qed.

(** C48: a data message with improper keys is not answered *)
Definition r48_m : data4 := mkData4 false 0 0 0 pt_id None [x41] (repeat x42 64) [].
Definition r48_p : bytes := Eval vm_compute in
  match encode_message V4 301 400 (MData4 r48_m) with Ok b => b | _ => [] end.
Definition r48_out := Eval vm_compute in receive toy (xs_eb x21 0) xs_b0 r48_p.
Lemma unanswered :
  ~ (forall C d h s e p em s' out r m, history C d h s -> enabled d -> carries C s p em ->
       allowed d (em_version em) -> addressed d em -> em_message em = MData4 m -> receive C e s p = (s', out, r) ->
       r <> Panic ->
       (exists text, opens C (state_of s (em_sender em)) em text) \/ out = [UNREADABLE_REPLY]).
Proof.
  intros H. specialize (H toy xs_bob [] xs_b0 (xs_eb x21 0) r48_p (mkEncoded V4 301 400 (MData4 r48_m))
    (fst (fst r48_out)) (snd (fst r48_out)) (snd r48_out) r48_m).
  destruct H as [(text & O)|H].
  - constructor.
  - right. reflexivity.
  - exists r48_p. split; [left; split; reflexivity|]. vm_compute. reflexivity.
  - reflexivity.
  - repeat split; discriminate.
  - reflexivity.
  - vm_compute. reflexivity.
  - discriminate.
  - exact O.
  - discriminate H.
Qed.

(** * C40: the text is altered: its NUL bytes are left out *)
Lemma text_altered :
  ~ (forall C d h s e t c s' out r ps, history C d h s -> enabled d -> status_of s t = Plaintext ->
       send C e s t c = (s', out, r) -> r = Ok ps -> ps = [c] \/ exists v, ps = [whitespace_tag v ++ c]).
Proof.
  intros H. set (c := [x68; x00; x69]).
  destruct (send toy (xs_ea x21 0) (snd r40_s) 0 c) as [[s' out] r] eqn:S.
  assert (R : r = Ok [[x68; x69]]).
  { transitivity (snd (send toy (xs_ea x21 0) (snd r40_s) 0 c)); [now rewrite S|vm_compute; reflexivity]. }
  destruct (H toy xs_alice (fst r40_s) (snd r40_s) (xs_ea x21 0) 0 c s' out r _ r40_run (proj1 xs_enabled) eq_refl S R)
    as [X|(v & X)]; [discriminate|].
  apply (f_equal (fun l => length (concat l))) in X. destruct v; vm_compute in X; discriminate.
Qed.
