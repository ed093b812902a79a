(* An encrypted state of the instance for tag t was set up between the own tag and t. *)
From Verif Require Import Base BaseLemmas Types Crypto Encoding EncodingProofs Messages Fragment KeyManager DataV3 Ratchet DataV4
  AKE DAKE SMP SMP4 Protocol Session SpecSession SessionProofs.
From Coq Require Import Lia ZifyN ZifyNat.
Local Open Scope N_scope.

Definition party (our their : N) (s : pstate) : Prop :=
  match s with PEnc3 o t _ _ | PEnc4 o t _ _ => o = our /\ t = their | _ => True end.

Ltac fin3 H := apply pair3 in H; destruct H as (<- & <- & <-).
Ltac inj3 H := apply injecting_inv in H;
  destruct H as [(_ & -> & ->) | [(? & E0 & _) | (_ & ->)]]; [|now apply inject_no_err in E0|congruence].

Section WithCrypto.
Context (C : Crypto) (our : N).

Lemma prepare_party t s ig c rnd s' m : p_prepare C s ig c rnd = Ok (s', m) -> party our t s -> party our t s'.
Proof.
  destruct s; cbn [p_prepare]; intros H; try easy.
  - injection H as <- <-. auto.
  - apply bind_ok in H. destruct H as ([x k'] & _ & H). injection H as <- <-. auto.
  - apply bind_ok in H. destruct H as ([x k'] & _ & H). injection H as <- <-. auto.
Qed.
Lemma prepare_tlv_party t e s x s' m : prepare_tlv C e s x = Ok (s', m) -> party our t s -> party our t s'.
Proof. unfold prepare_tlv. intros H. apply bind_ok in H. destruct H as (w & _ & H). eapply prepare_party, H. Qed.
Lemma handle3_party t s m auth rnd s' x : p_handle3 C s m auth rnd = (s', x) -> party our t s -> party our t s'.
Proof.
  destruct s; cbn [p_handle3]; try (intros H; injection H as <- <-; auto).
  destruct (decrypt3 C k m auth rnd) as [k' r]. intros H. apply after_decrypt_status in H.
  destruct H as [-> | (-> & _)]; [auto|easy].
Qed.
Lemma handle4_party t s m auth rnd s' x : p_handle4 C s m auth rnd = (s', x) -> party our t s -> party our t s'.
Proof.
  destruct s; cbn [p_handle4]; try (intros H; injection H as <- <-; auto).
  destruct (decrypt4 C d m auth rnd) as [k' r]. intros H. apply after_decrypt_status in H.
  destruct H as [-> | (-> & _)]; [auto|easy].
Qed.
Lemma smp_finish_party t d e i0 i sender reply report i' out r :
  smp_finish C d e i0 i sender reply report = (i', out, r) -> r <> Panic ->
  party our t (in_state i) -> party our t (in_state i').
Proof.
  unfold smp_finish. intros H NP P. destruct reply as [[x|]|x|].
  - destruct (prepare_tlv C e (in_state i) x) as [[s m]|y|] eqn:Q.
    + apply (prepare_tlv_party t) in Q; [|assumption]. destruct (inject _ _ _ _ _ _) as [o|y|].
      * destruct report; fin3 H; try easy; exact Q.
      * fin3 H. exact Q.
      * fin3 H. easy.
    + fin3 H. auto.
    + fin3 H. easy.
  - destruct report; fin3 H; easy.
  - fin3 H. auto.
  - fin3 H. easy.
Qed.
Lemma data3_party t d e i sd rc m i' out r :
  inst_data3 C d e i sd rc m = (i', out, r) -> r <> Panic -> party our t (in_state i) -> party our t (in_state i').
Proof.
  unfold inst_data3. destruct (p_handle3 C _ _ _ _) as [s x] eqn:H3. intros H NP P.
  apply (handle3_party t) in H3; [|assumption]. destruct x as [[content tlvs|content]|x|].
  - destruct (existsb is_smp3_tlv tlvs); [|fin3 H; assumption].
    destruct (single_smp is_smp3_tlv tlvs) as [y|z|]; [|fin3 H; assumption|fin3 H; easy].
    destruct s as [|o th k smp|o th k smp|]; try (fin3 H; assumption).
    destruct (smp_handle _ _ _ _ _) as [smp' reply].
    eapply smp_finish_party in H; [exact H|assumption|assumption].
  - fin3 H. assumption.
  - apply data_error_inst in H. subst i'. assumption.
  - now fin3 H.
Qed.
Lemma data4_party t d e i sd rc m i' out r :
  inst_data4 C d e i sd rc m = (i', out, r) -> r <> Panic -> party our t (in_state i) -> party our t (in_state i').
Proof.
  unfold inst_data4. destruct (data4_validate C m) as [u|x|]; intros H NP P; [|fin3 H; auto|now fin3 H].
  revert H. destruct (p_handle4 C _ _ _ _) as [s x] eqn:H3. intros H.
  apply (handle4_party t) in H3; [|assumption]. destruct x as [[content tlvs|content]|x|].
  - destruct (existsb is_smp4_tlv tlvs); [|fin3 H; assumption].
    destruct (single_smp is_smp4_tlv tlvs) as [y|z|]; [|fin3 H; assumption|fin3 H; easy].
    destruct s as [|o th k smp|o th k smp|]; try (fin3 H; assumption).
    destruct (smp4_handle _ _ _ _ _) as [smp' reply].
    eapply smp_finish_party in H; [exact H|assumption|assumption].
  - fin3 H. assumption.
  - apply data_error_inst in H. subst i'. assumption.
  - now fin3 H.
Qed.
Lemma secure_party d e i t m i' : secure C d e i t m = Ok i' -> party (de_tag d) t (in_state i').
Proof.
  unfold secure. intros H. apply bind_ok in H. destruct H as (s & E & H).
  destruct (status_eqb (p_status s) Encrypted) eqn:S; [|easy]. injection H as <-. cbn [in_state set_state].
  unfold p_secure in E. destruct (in_state i), m; try discriminate;
    try (unfold enc3_new in E; apply bind_ok in E; destruct E as (k' & _ & E)); injection E as <-; now split.
Qed.
Lemma handle_party d e i em i' out r :
  inst_handle C d e i em = (i', out, r) -> r <> Panic -> our = de_tag d -> in_receiver i = em_sender em ->
  party our (in_receiver i) (in_state i) -> party our (in_receiver i) (in_state i').
Proof.
  unfold inst_handle. intros H NP OD RS P.
  destruct (em_version em), (em_message em); try (fin3 H; congruence); try (fin3 H; exact P).
  - destruct (ake_handle_dhcommit C _ _ _) as [st [a|x|]]; [inj3 H; exact P|fin3 H; exact P|fin3 H; congruence].
  - destruct (ake_handle_dhkey C _ _ _ _) as [st [a|x|]]; [inj3 H; exact P|fin3 H; exact P|fin3 H; congruence].
  - destruct (ake_handle_reveal C _ _ _ _) as [st [[mat a]|x|]]; [|fin3 H; exact P|fin3 H; congruence].
    destruct (secure C _ _ _ _ _) as [j|x|] eqn:S; [|fin3 H; exact P|fin3 H; congruence].
    apply secure_party in S. inj3 H. now rewrite OD, RS.
  - destruct (ake_handle_signature C _ _) as [st [mat|x|]]; [|fin3 H; exact P|fin3 H; congruence].
    destruct (secure C _ _ _ _ _) as [j|x|] eqn:S; [|fin3 H; exact P|fin3 H; congruence].
    apply secure_party in S. fin3 H. now rewrite OD, RS.
  - eapply data3_party in H; [exact H|assumption|exact P].
  - destruct (dake_handle_identity C _ _ _ _ _ _ _) as [st [a|x|]]; [inj3 H; exact P|fin3 H; exact P|fin3 H; congruence].
  - destruct (dake_handle_auth_r C _ _ _ _ _ _ _ _ _) as [st [[mat a]|x|]]; [|fin3 H; exact P|fin3 H; congruence].
    destruct (inject _ _ _ _ _ _) as [o|x|]; [|fin3 H; exact P|fin3 H; congruence].
    destruct (secure C _ _ _ _ _) as [j|x|] eqn:S; [|fin3 H; exact P|fin3 H; congruence].
    apply secure_party in S. fin3 H. now rewrite OD.
  - destruct (dake_handle_auth_i C _ _ _ _ _) as [st [mat|x|]]; [|fin3 H; exact P|fin3 H; congruence].
    destruct (secure C _ _ _ _ _) as [j|x|] eqn:S; [|fin3 H; exact P|fin3 H; congruence].
    apply secure_party in S. fin3 H. now rewrite OD.
  - eapply data4_party in H; [exact H|assumption|exact P].
Qed.
Lemma send_party t d e i tg c i' tg' r : inst_send C d e i tg c = (i', tg', r) -> r <> Panic ->
  party our t (in_state i) -> party our t (in_state i').
Proof.
  unfold inst_send. destruct (p_prepare C _ _ _ _) as [[s m]|x|] eqn:P; intros H NP Q.
  - apply (prepare_party t) in P; [|assumption]. destruct m; try (fin3 H; congruence).
    + destruct (negb _); [fin3 H; congruence|]. destruct (_ && _ && _); fin3 H; exact P.
    + fin3 H. exact P.
    + fin3 H. exact P.
  - fin3 H; auto.
  - fin3 H; congruence.
Qed.
Lemma start_smp_party t d e i sec q i' out r : inst_start_smp C d e i sec q = (i', out, r) -> r <> Panic ->
  party our t (in_state i) -> party our t (in_state i').
Proof.
  unfold inst_start_smp. intros H NP Q.
  destruct (in_state i) as [|o th k smp|o th k smp|] eqn:S; try (fin3 H; now rewrite S).
  - destruct (smp_initiate _ _ _ _ _ _) as [smp' [x|x|]].
    + destruct (prepare_tlv C e _ x) as [[s m]|y|] eqn:P; [|fin3 H; exact Q|fin3 H; congruence].
      apply (prepare_tlv_party t) in P; [|exact Q]. inj3 H. exact P.
    + fin3 H. exact Q.
    + fin3 H. congruence.
  - destruct (smp4_initiate _ _ _ _ _) as [smp' [x|x|]].
    + destruct (prepare_tlv C e _ x) as [[s m]|y|] eqn:P; [|fin3 H; exact Q|fin3 H; congruence].
      apply (prepare_tlv_party t) in P; [|exact Q]. inj3 H. exact P.
    + fin3 H. exact Q.
    + fin3 H. congruence.
Qed.
Lemma abort_smp_party t d e i i' out r : inst_abort_smp C d e i = (i', out, r) -> r <> Panic ->
  party our t (in_state i) -> party our t (in_state i').
Proof.
  unfold inst_abort_smp. intros H NP Q.
  destruct (in_state i) as [|o th k smp|o th k smp|] eqn:S; try (fin3 H; now rewrite S).
  - destruct (smp_abort smp) as [smp' x].
    destruct (prepare_tlv C e _ x) as [[s m]|y|] eqn:P; try (fin3 H; congruence).
    apply (prepare_tlv_party t) in P; [|exact Q]. inj3 H. exact P.
  - destruct (smp4_abort smp) as [smp' x].
    destruct (prepare_tlv C e _ x) as [[s m]|y|] eqn:P; try (fin3 H; congruence).
    apply (prepare_tlv_party t) in P; [|exact Q]. inj3 H. exact P.
Qed.

End WithCrypto.
