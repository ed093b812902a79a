(* OTRv3: the key numbers of a new conversation. *)
From Verif Require Import Base BaseLemmas Types Crypto CryptoProofs Encoding EncodingProofs ClientProfile Messages Fragment KeyManager DataV3 Ratchet DataV4
  AKE DAKE SMP SMP4 Protocol Session SpecWire SpecAKE SpecSession SpecStart SessionProofs SessionPartyProofs SessionInvProofs SessionSendProofs
  SessionRecvProofs SessionHistProofs SessionLemmas SpecNet NetProofs NetAKEProofs StartProofs StartLemmas SpecNumber.
From Coq Require Import Lia ZifyN ZifyNat.
Local Open Scope N_scope.

Section WithCrypto.
Context (C : Crypto).
Arguments at_ : simpl never.

Definition fresh3 (our their : N) (st : pstate) : Prop :=
  exists k smp mat r0 r1, st = PEnc3 our their k smp /\ km_new C 1 (am_our_dh mat) 1 (am_their_dh mat) r0 r1 = Ok k.

Lemma handled_fresh3 d e i em i' out u : em_version em = V3 -> inst_handle C d e i em = (i', out, Ok (UMSessionStarted u)) ->
  fresh3 (de_tag d) (em_sender em) (in_state i').
Proof.
  intros V H. pose proof H as H0. apply handled_start3 in H0; [|assumption]. destruct H0 as (_ & _ & M).
  unfold inst_handle in H. rewrite V in H. destruct M as [(m & M)|(m & M)]; rewrite M in H.
  - destruct (ake_handle_reveal _ _ _ _ _) as [st [[mat x]|x|]] eqn:K; try (apply pair3 in H; destruct H as (_ & _ & H); discriminate).
    destruct (secure _ _ _ _ _ _) as [i1|x'|] eqn:S; try (apply pair3 in H; destruct H as (_ & _ & H); discriminate).
    apply secure3 in S. destruct S as (k & KM & ->). apply injecting_inv in H.
    destruct H as [(_ & -> & _)|[(z & _ & _ & _ & H)|(_ & H)]]; try discriminate.
    exists k. eexists. exists mat. do 2 eexists. split; [reflexivity|exact KM].
  - destruct (ake_handle_signature _ _ _) as [st [mat|x|]] eqn:K; try (apply pair3 in H; destruct H as (_ & _ & H); discriminate).
    destruct (secure _ _ _ _ _ _) as [i1|x'|] eqn:S; try (apply pair3 in H; destruct H as (_ & _ & H); discriminate).
    apply secure3 in S. destruct S as (k & KM & ->). apply pair3 in H. destruct H as (<- & _ & _).
    exists k. eexists. exists mat. do 2 eexists. split; [reflexivity|exact KM].
Qed.

Lemma encoded_fresh3 e s em s' out : sinv s -> em_version em = V3 ->
  receive_encoded C e s em = (s', out, Ok (UMSessionStarted (em_sender em))) ->
  fresh3 (de_tag (se_details s)) (em_sender em) (state_of s' (em_sender em)).
Proof.
  intros SI V H. assert (X := H). apply encoded_split in X; [|discriminate].
  destruct X as [(_ & _ & _ & X)|[(_ & _ & _ & x & X & _)|(VH & NZ & AL & _)]]; try discriminate. rewrite V in AL.
  destruct (si_zero _ SI) as (z & Z & _). assert (RZ : in_receiver z = 0) by (exact (sinv_get _ _ _ SI Z)).
  assert (RI : in_receiver (at_ s (em_sender em)) = em_sender em) by (apply sinv_entry; assumption).
  unfold receive_encoded in H. assert (NZ' := NZ). apply N.eqb_neq in NZ'. rewrite NZ', VH, V in H.
  rewrite allowed_not_refused in H by (try assumption; now left). rewrite Z in H.
  assert (F : on_entry s (em_sender em) (fun i => inst_handle C (se_details s) e i em) = (s', out, Ok (UMSessionStarted (em_sender em))) ->
    fresh3 (de_tag (se_details s)) (em_sender em) (state_of s' (em_sender em))).
  { intros K. apply on_entry_inv in K; [|discriminate]. destruct K as (i' & K & ->). rewrite state_put_same. eapply handled_fresh3; eassumption. }
  destruct (em_message em) eqn:M; try (apply F; exact H). exfalso. clear F.
  unfold transfer_ake_context in H. rewrite RZ in H. cbn [N.eqb] in H.
  destruct (ake_transfer (in_ake z)) as [a|x|]; [|apply on_entry_inv in H; [|discriminate]|apply pair3 in H; destruct H as (_ & _ & H); discriminate].
  - apply on_entry_inv in H; [|discriminate]. destruct H as (i' & H & _). fold (at_ s (em_sender em)) in H.
    unfold adopt_ake_context in H. rewrite RI, NZ' in H.
    apply handled_start3 in H; [|assumption]. destruct H as (_ & _ & [(y & H)|(y & H)]); congruence.
  - destruct H as (i' & H & _). apply handled_start3 in H; [|assumption]. destruct H as (_ & _ & [(y & H)|(y & H)]); congruence.
Qed.

Lemma start_fresh3 d h s e p em s' : history C d h s -> em_version em = V3 -> starts C e s p em s' ->
  sinv s' /\ se_details s' = d /\ enabled d /\ fresh3 (de_tag d) (em_sender em) (state_of s' (em_sender em)).
Proof.
  intros H V (CA & o & R). destruct (history_inv C d h s H) as [I D].
  pose proof (started_enabled C _ _ _ _ _ _ R) as EN.
  destruct (received_inv C _ _ _ _ _ _ R ltac:(discriminate) I) as [I1 D1].
  split; [assumption|]. split; [congruence|]. split; [now rewrite <- D|].
  eapply carried_in in R; [|exact EN|exact CA|discriminate].
  apply encoded_fresh3 in R; [|now apply sinv_stored|assumption]. now rewrite stored_details, D in R.
Qed.

Theorem sent_to_one d h s e p em s' e' c s'' ps : history C d h s -> em_version em = V3 -> starts C e s p em s' ->
  send C e' s' (em_sender em) c = (s'', [], Ok ps) -> under_numbers d e' (em_sender em) ps 1 1.
Proof.
  intros H V S SE. destruct (start_fresh3 _ _ _ _ _ _ _ H V S) as (SI & D & EN & k & smp & mat & r0 & r1 & ST & KM).
  eapply send3_out in SE; [|assumption|now rewrite D|exact ST]. rewrite D in SE. destruct SE as (m & k' & E & T).
  destruct (encrypt3_first C (de_tag d) (em_sender em) mat) as (key & mac & ctr & F).
  destruct (F _ _ _ _ _ _ KM E) as (n & X). exists m. split; [assumption|]. injection X as ->. split; reflexivity.
Qed.

Theorem others_refused d h s e p em s' e2 p2 em2 m s2 out r : history C d h s -> em_version em = V3 -> starts C e s p em s' ->
  carries C s' p2 em2 -> em_version em2 = V3 -> em_sender em2 = em_sender em -> em_receiver em2 = de_tag d -> legal_details d ->
  256 <= em_sender em -> em_message em2 = MData m -> d3_sender_keyid m <> 1 ->
  receive C e2 s' p2 = (s2, out, r) -> r <> Panic ->
  out = [UNREADABLE_REPLY] /\ r = (if d3_ignore_unreadable m then Ok UMNone else Err (UnreadableMessage (em_sender em))).
Proof.
  intros H V S CA V2 S2 R2 LD LE M NE R NP. destruct (start_fresh3 _ _ _ _ _ _ _ H V S) as (SI & D & EN & k & smp & mat & r0 & r1 & ST & KM).
  assert (AL : allowed d V3).
  { destruct S as (CS & o & RS). destruct (history_inv C d h s H) as [I D0]. pose proof (started_enabled C _ _ _ _ _ _ RS) as EN0.
    eapply carried_in in RS; [|exact EN0|exact CS|discriminate]. apply encoded_split in RS; [|discriminate].
    destruct RS as [(_ & _ & _ & X)|[(_ & _ & _ & x & X & _)|(_ & _ & A & _)]]; try discriminate. now rewrite stored_details, D0, V in A. }
  eapply carried_in in R; [|now rewrite D|exact CA|assumption].
  assert (EM : em2 = mkEncoded V3 (em_sender em) (de_tag d) (MData m)) by (destruct em2; cbn in *; congruence). rewrite EM in R. clear EM.
  destruct LD as [LD1 LD2]. rewrite encoded_addressed in R; [|now left|assumption|now rewrite stored_details, D|rewrite stored_details, D; auto].
  cbn zeta iota in R. apply on_entry_ok in R; [|assumption]. destruct R as (i' & E & ->). rewrite stored_details, D in E.
  pose proof (sinv_stored s' p2 SI) as SI'. pose proof (sinv_entry _ (em_sender em) SI') as RI.
  assert (ST' : in_state (entry (em_sender em) (se_instances (stored s' p2))) = PEnc3 (de_tag d) (em_sender em) k smp)
    by (rewrite entry_state, stored_state; exact ST).
  set (i := entry (em_sender em) (se_instances (stored s' p2))) in *.
  unfold inst_handle in E. cbn [em_version em_message em_sender em_receiver] in E. unfold inst_data3 in E.
  cbn [in_state set_assembler] in E. rewrite ST' in E. cbn [p_handle3] in E.
  assert (TI : pr_id (km_theirs k) = 1).
  { unfold km_new in KM. apply bind_ok in KM. destruct KM as (a & _ & KM). apply bind_ok in KM. destruct KM as (b & PR & KM).
    injection KM as <-. cbn [km_theirs]. unfold pr_new in PR. cbn [N.eqb] in PR.
    destruct (_ =? 0) in PR; [discriminate|]. injection PR as <-. reflexivity. }
  assert (DE : decrypt3 C k m (encode_authenticator_data (em_sender em) (de_tag d) m) (ev_ack e2)
     = (k, if d3_sender_keyid m =? 0 then Panic else Err ProtocolViolation)).
  { assert (PS : pr_select (km_theirs k) (d3_sender_keyid m) = if d3_sender_keyid m =? 0 then Panic else Err ProtocolViolation).
    { unfold pr_select. rewrite TI. destruct (N.eqb_spec (d3_sender_keyid m) 0) as [|Z]; [reflexivity|].
      change (1 =? 0) with false. cbn iota.
      assert (((1 - 1 =? d3_sender_keyid m) || (1 =? d3_sender_keyid m))%bool = false) as ->; [|reflexivity].
      apply Bool.orb_false_iff. split; apply N.eqb_neq; lia. }
    unfold decrypt3. rewrite PS. destruct (d3_sender_keyid m =? 0); reflexivity. }
  rewrite DE in E. destruct (d3_sender_keyid m =? 0).
  - cbn [after_decrypt] in E. apply pair3 in E. destruct E as (_ & _ & E). congruence.
  - cbn [after_decrypt] in E. rewrite data_error_unreadable in E. cbn [in_receiver set_state set_assembler] in E. rewrite RI in E.
    apply pair3 in E. destruct E as (_ & <- & <-). auto.
Qed.
End WithCrypto.
