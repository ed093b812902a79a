(* C71: what users are shown in a private conversation, when an attacker controls the network. *)
From Verif Require Import Base Types Crypto ToyCrypto Encoding Messages Fragment KeyManager DataV3 Ratchet DataV4 SpecCurve Protocol Session
  SpecData3 SpecData4 SpecSession SessionExamples SpecNet NetExamples Net4Examples SpecFollow FollowProofs SpecTexts TextsLemmas TextsExamples.
Local Open Scope N_scope.

(** ** C71 Users are shown nothing but what the peer's user said, in that order, each text at most once *)

(* Whatever the calls and the messages: as long as the conversation is not replaced by a new one, there is an
   account of what each call did with its data messages. *)
Theorem C71_accounts : forall C d h0 s h s' t, history C d h0 s -> enabled d -> run C s h s' -> status_of s' t = Encrypted ->
  Forall (fun ev => ~ started_with t ev) h -> exists gs, account C t s h s' gs.
Proof. exact account_exists. Qed.
Print Assumptions C71_accounts.

(* OTRv4: two sessions have gone through a key exchange.  From then on each gets any calls, with any messages.  If
   no message is forged, both read in every message what the other wrote in it, *)
Theorem C71_v4_read : forall C da db sa sb x hA sA gA hB sB gB, start_net4 C da db sa sb x ->
  account C (de_tag db) (x_sa2 x) hA sA gA -> account C (de_tag da) (x_sb3 x) hB sB gB ->
  genuine (concat gA) (concat gB) -> genuine (concat gB) (concat gA) ->
  read_as_written (concat gA) (concat gB) /\ read_as_written (concat gB) (concat gA).
Proof. exact net4_read. Qed.
Print Assumptions C71_v4_read.

(* and the texts that each user is shown are some of those that the other user sent, in the same order. *)
Theorem C71_v4_shown : forall C da db sa sb x hA sA gA hB sB gB, start_net4 C da db sa sb x ->
  account C (de_tag db) (x_sa2 x) hA sA gA -> account C (de_tag da) (x_sb3 x) hB sB gB ->
  genuine (concat gA) (concat gB) -> genuine (concat gB) (concat gA) ->
  (bare_texts (de_tag da) hB /\ selection (texts_shown (de_tag da) hB) (texts_sent (de_tag db) hA)) /\
  (bare_texts (de_tag db) hA /\ selection (texts_shown (de_tag db) hA) (texts_sent (de_tag da) hB)).
Proof. exact shown4. Qed.
Print Assumptions C71_v4_shown.

Example C71_ex4 : start_net4 toy xs_alice xs_bob xs_a0 xs_b0 nf_x /\
  account toy 400 (x_sa2 nf_x) (fst tf_a) (snd tf_a) (each tf_ga) /\ account toy 301 (x_sb3 nf_x) (fst tf_b) (snd tf_b) (each tf_gb) /\
  (genuine (concat (each tf_ga)) (concat (each tf_gb)) /\ genuine (concat (each tf_gb)) (concat (each tf_ga))) /\
  texts_sent 400 (fst tf_a) = [xs_hi; ts_yo; xs_hi] /\ texts_shown 301 (fst tf_b) = [xs_hi; xs_hi] /\
  texts_sent 301 (fst tf_b) = [xs_hi] /\ texts_shown 400 (fst tf_a) = [xs_hi].
Proof.
  split; [exact nf_start|]. split; [exact tf_account_a|]. split; [exact tf_account_b|]. split; [exact tf_genuine|]. repeat apply conj; vm_compute; reflexivity.
Qed.

(* OTRv3: the same for what is read in a message. *)
Theorem C71_v3_read : forall C da db sa sb x hA sA gA hB sB gB, start_net3 C da db sa sb x ->
  account C (de_tag db) (x_sa2 x) hA sA gA -> account C (de_tag da) (x_sb3 x) hB sB gB ->
  genuine (concat gA) (concat gB) -> genuine (concat gB) (concat gA) ->
  read_as_written (concat gA) (concat gB) /\ read_as_written (concat gB) (concat gA).
Proof. exact net3_read. Qed.
Print Assumptions C71_v3_read.

(* Each text shown is one that the other user sent.  Missing: the order, and that no text is shown more often than
   it was sent (false, see below). *)
Theorem C71_v3_shown_partial : forall C da db sa sb x hA sA gA hB sB gB, start_net3 C da db sa sb x ->
  account C (de_tag db) (x_sa2 x) hA sA gA -> account C (de_tag da) (x_sb3 x) hB sB gB ->
  genuine (concat gA) (concat gB) -> genuine (concat gB) (concat gA) ->
  (bare_texts (de_tag da) hB /\ incl (texts_shown (de_tag da) hB) (texts_sent (de_tag db) hA)) /\
  (bare_texts (de_tag db) hA /\ incl (texts_shown (de_tag db) hA) (texts_sent (de_tag da) hB)).
Proof. exact shown3. Qed.
Print Assumptions C71_v3_shown_partial.

Example C71_ex3 : start_net3 toy ns_alice ns_bob ns_a0 ns_b0 ns_x /\
  account toy 400 (x_sa2 ns_x) (fst ts_a) (snd ts_a) (each ts_ga) /\ account toy 301 (x_sb3 ns_x) (fst ts_b) (snd ts_b) (each ts_gb) /\
  (genuine (concat (each ts_ga)) (concat (each ts_gb)) /\ genuine (concat (each ts_gb)) (concat (each ts_ga))) /\
  texts_sent 400 (fst ts_a) = [xs_hi; ts_yo] /\ texts_shown 301 (fst ts_b) = [xs_hi; xs_hi; ts_yo] /\
  texts_sent 301 (fst ts_b) = [xs_hi] /\ texts_shown 400 (fst ts_a) = [xs_hi].
Proof.
  split; [exact ns_start|]. split; [exact ts_account_a|]. split; [exact ts_account_b|]. split; [exact ts_genuine|]. repeat apply conj; vm_compute; reflexivity.
Qed.

(* OTRv3: a message delivered twice is shown twice. *)
Theorem C71_v3_refuted : ~ (forall C da db sa sb x hA sA gA hB sB gB, start_net3 C da db sa sb x ->
  account C (de_tag db) (x_sa2 x) hA sA gA -> account C (de_tag da) (x_sb3 x) hB sB gB ->
  genuine (concat gA) (concat gB) -> genuine (concat gB) (concat gA) ->
  selection (texts_shown (de_tag da) hB) (texts_sent (de_tag db) hA)).
Proof.
  intros H. specialize (H toy _ _ _ _ _ _ _ _ _ _ _ ns_start ts_account_a ts_account_b (proj1 ts_genuine) (proj2 ts_genuine)).
  destruct C71_ex3 as (_ & _ & _ & _ & E1 & E2 & _). change (de_tag ns_alice) with 301 in H. change (de_tag ns_bob) with 400 in H.
  rewrite E1, E2 in H. apply selection_cons_inv in H. destruct H as (m1 & m2 & E & H).
  apply selection_cons_inv in H. destruct H as (m3 & m4 & -> & H).
  destruct m1 as [|y1 [|y2 [|y3 m1]]]; cbn in E.
  - injection E as E. destruct m3 as [|y4 [|y5 m3]]; cbn in E; discriminate E.
  - injection E as _ E. discriminate E.
  - discriminate E.
  - discriminate E.
Qed.
Print Assumptions C71_v3_refuted.
