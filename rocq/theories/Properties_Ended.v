(* C73: when users are told that the peer has finished the conversation, while an attacker controls the network. *)
From Verif Require Import Base Types Crypto ToyCrypto Encoding Messages Fragment KeyManager DataV3 Ratchet DataV4 SpecCurve Protocol Session
  SpecData3 SpecData4 SpecSession SessionExamples SpecNet NetExamples Net4Examples SpecFollow SpecTexts TextsExamples
  SpecEnded EndedLemmas EndedExamples.
Local Open Scope N_scope.

(** ** C73 A conversation is finished for a user only if the peer's client ended it *)

(* OTRv4: as in C71 two sessions have gone through a key exchange, each gets any calls with any messages, and so far
   no message was forged.  Whenever a user is then told that the peer has finished the conversation, it is because
   of a message that was accepted with the keys of the conversation and says so; no message that the peer's
   client has written for its user or for a verification does. *)
Theorem C73_v4_not_by_text : forall C da db sa sb x hA sA gA hB sB gB, start_net4 C da db sa sb x ->
  account C (de_tag db) (x_sa2 x) hA sA gA -> account C (de_tag da) (x_sb3 x) hB sB gB ->
  genuine (concat gA) (concat gB) -> genuine (concat gB) (concat gA) ->
  (forall e p s' out c, receive C e sB p = (s', out, Ok (UMSessionFinished (de_tag da) c)) ->
     exists em, says_farewell C (concat gA) sB (de_tag da) p c em) /\
  (forall e p s' out c, receive C e sA p = (s', out, Ok (UMSessionFinished (de_tag db) c)) ->
     exists em, says_farewell C (concat gB) sA (de_tag db) p c em).
Proof. exact ended4. Qed.
Print Assumptions C73_v4_not_by_text.

(* So if that message is not forged either, it is the one with which the peer's client ended the conversation. *)
Theorem C73_v4_by_peer : forall C da db sa sb x hA sA gA hB sB gB, start_net4 C da db sa sb x ->
  account C (de_tag db) (x_sa2 x) hA sA gA -> account C (de_tag da) (x_sb3 x) hB sB gB ->
  genuine (concat gA) (concat gB) -> genuine (concat gB) (concat gA) ->
  (forall e p s' out c, receive C e sB p = (s', out, Ok (UMSessionFinished (de_tag da) c)) ->
     from_peer C sA (de_tag db) (concat gA) sB (de_tag da) p ->
     exists em m, carries C sB p em /\ ends_with C sA (de_tag db) m /\ same_data m (em_message em)) /\
  (forall e p s' out c, receive C e sA p = (s', out, Ok (UMSessionFinished (de_tag db) c)) ->
     from_peer C sB (de_tag da) (concat gB) sA (de_tag db) p ->
     exists em m, carries C sA p em /\ ends_with C sB (de_tag da) m /\ same_data m (em_message em)).
Proof.
  intros C da db sa sb x hA sA gA hB sB gB S TA TB GA GB. destruct (ended4 C _ _ _ _ _ _ _ _ _ _ _ S TA TB GA GB) as [E1 E2].
  split; intros e p s' out c H F.
  - destruct (E1 _ _ _ _ _ H) as (em & SF). exact (by_peer _ _ _ _ _ _ _ _ _ SF F).
  - destruct (E2 _ _ _ _ _ H) as (em & SF). exact (by_peer _ _ _ _ _ _ _ _ _ SF F).
Qed.
Print Assumptions C73_v4_by_peer.

Example C73_ex4 : start_net4 toy xs_alice xs_bob xs_a0 xs_b0 nf_x /\
  account toy 400 (x_sa2 nf_x) (fst tf_a) (snd tf_a) (each tf_ga) /\ account toy 301 (x_sb3 nf_x) (fst tf_b) (snd tf_b) (each tf_gb) /\
  (genuine (concat (each tf_ga)) (concat (each tf_gb)) /\ genuine (concat (each tf_gb)) (concat (each tf_ga))) /\
  receive toy (xs_eb x27 0) (snd tf_b) ed4_bye = (fst (fst ed4_told), [], Ok (UMSessionFinished 301 [])) /\
  from_peer toy (snd tf_a) 400 (concat (each tf_ga)) (snd tf_b) 301 ed4_bye.
Proof.
  split; [exact nf_start|]. split; [exact tf_account_a|]. split; [exact tf_account_b|]. split; [exact tf_genuine|].
  split; [exact ed4_receives|exact ed4_from].
Qed.

(* OTRv3: the same. *)
Theorem C73_v3_not_by_text : forall C da db sa sb x hA sA gA hB sB gB, start_net3 C da db sa sb x ->
  account C (de_tag db) (x_sa2 x) hA sA gA -> account C (de_tag da) (x_sb3 x) hB sB gB ->
  genuine (concat gA) (concat gB) -> genuine (concat gB) (concat gA) ->
  (forall e p s' out c, receive C e sB p = (s', out, Ok (UMSessionFinished (de_tag da) c)) ->
     exists em, says_farewell C (concat gA) sB (de_tag da) p c em) /\
  (forall e p s' out c, receive C e sA p = (s', out, Ok (UMSessionFinished (de_tag db) c)) ->
     exists em, says_farewell C (concat gB) sA (de_tag db) p c em).
Proof. exact ended3. Qed.
Print Assumptions C73_v3_not_by_text.

Theorem C73_v3_by_peer : forall C da db sa sb x hA sA gA hB sB gB, start_net3 C da db sa sb x ->
  account C (de_tag db) (x_sa2 x) hA sA gA -> account C (de_tag da) (x_sb3 x) hB sB gB ->
  genuine (concat gA) (concat gB) -> genuine (concat gB) (concat gA) ->
  (forall e p s' out c, receive C e sB p = (s', out, Ok (UMSessionFinished (de_tag da) c)) ->
     from_peer C sA (de_tag db) (concat gA) sB (de_tag da) p ->
     exists em m, carries C sB p em /\ ends_with C sA (de_tag db) m /\ same_data m (em_message em)) /\
  (forall e p s' out c, receive C e sA p = (s', out, Ok (UMSessionFinished (de_tag db) c)) ->
     from_peer C sB (de_tag da) (concat gB) sA (de_tag db) p ->
     exists em m, carries C sA p em /\ ends_with C sB (de_tag da) m /\ same_data m (em_message em)).
Proof.
  intros C da db sa sb x hA sA gA hB sB gB S TA TB GA GB. destruct (ended3 C _ _ _ _ _ _ _ _ _ _ _ S TA TB GA GB) as [E1 E2].
  split; intros e p s' out c H F.
  - destruct (E1 _ _ _ _ _ H) as (em & SF). exact (by_peer _ _ _ _ _ _ _ _ _ SF F).
  - destruct (E2 _ _ _ _ _ H) as (em & SF). exact (by_peer _ _ _ _ _ _ _ _ _ SF F).
Qed.
Print Assumptions C73_v3_by_peer.

Example C73_ex3 : start_net3 toy ns_alice ns_bob ns_a0 ns_b0 ns_x /\
  account toy 400 (x_sa2 ns_x) (fst ts_a) (snd ts_a) (each ts_ga) /\ account toy 301 (x_sb3 ns_x) (fst ts_b) (snd ts_b) (each ts_gb) /\
  (genuine (concat (each ts_ga)) (concat (each ts_gb)) /\ genuine (concat (each ts_gb)) (concat (each ts_ga))) /\
  receive toy (xs_ea x29 0) (snd ts_a) ed3_bye = (fst (fst ed3_told), [], Ok (UMSessionFinished 400 [])) /\
  from_peer toy (snd ts_b) 301 (concat (each ts_gb)) (snd ts_a) 400 ed3_bye.
Proof.
  split; [exact ns_start|]. split; [exact ts_account_a|]. split; [exact ts_account_b|]. split; [exact ts_genuine|].
  split; [exact ed3_receives|exact ed3_from].
Qed.
