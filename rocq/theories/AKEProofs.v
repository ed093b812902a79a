(* Proofs about the OTRv3 key exchange (model: AKE.v, vocabulary: SpecAKE.v). *)
From Verif Require Import Base BaseLemmas Types Crypto CryptoProofs Encoding EncodingProofs Messages
  SpecWire AKE SpecAKE.
From Coq Require Import Lia ZifyBool ZifyNat ZifyN.
Local Open Scope N_scope.

Section WithCrypto.
Context (C : Crypto).

Lemma ct_compare_iff a b : ct_compare a b = true <-> a = b /\ any_nonzero a = true.
Proof.
  unfold ct_compare. rewrite !andb_true_iff, bytes_eqb_eq. split; [intros [[? ?] ->]; auto|].
  intros [-> ?]. auto.
Qed.

Lemma as_ake_ok {A} (r : res A) a : as_ake r = Ok a -> r = Ok a.
Proof. destruct r; cbn; congruence. Qed.
Lemma as_ake_panic {A} (r : res A) : as_ake r = Panic -> r = Panic.
Proof. destruct r; cbn; congruence. Qed.
Lemma check_ake_ok b u : check_ake b = Ok u <-> b = true.
Proof. destruct b, u; cbn; split; congruence. Qed.
Lemma check_ake_safe b : check_ake b <> Panic.
Proof. now destruct b. Qed.

Lemma dh_verify_iff y : 0 < c_dh_g C -> dh_verify_public_key C y = true <-> dh_public_ok C y.
Proof.
  intros G. unfold dh_verify_public_key, dh_public_ok. rewrite andb_true_iff, !N.leb_le. lia.
Qed.

Lemma read_u32_range buf v rest : read_u32 buf = Ok (v, rest) -> v < 4294967296.
Proof. intros H. apply read_u32_exact in H. tauto. Qed.

(** ** proofs of identity *)

Lemma read_proof_ok x pk keyid sg rest :
  ake_read_proof C x = Ok (pk, keyid, sg, rest) ->
  exists tail, read_public_key C x = Ok (pk, tail) /\
    tail = write_u32 keyid ++ write_dsa_signature sg ++ rest /\ 0 < keyid < 4294967296.
Proof.
  unfold ake_read_proof. intros H.
  bind_inv H. apply as_ake_ok in E. bind_inv H. apply as_ake_ok in E0. bind_inv H. apply check_ake_ok in E1.
  bind_inv H. apply as_ake_ok in E2. injection H as <- <- <- <-.
  eexists. split; [exact E|]. pose proof (read_u32_range _ _ _ E0) as R.
  apply read_u32_exact in E0. destruct E0 as [_ Eq].
  apply read_dsa_signature_exact in E2. destruct E2 as [_ ->].
  split; [exact Eq|]. destruct (N.eqb_spec n 0); cbn in E1; [discriminate|]. lia.
Qed.

Lemma read_proof_write pk keyid sg rest :
  dsa_pub_ok C pk -> dsa_sig_ok C sg -> 0 < keyid < 4294967296 ->
  ake_read_proof C (write_public_key pk ++ write_u32 keyid ++ write_dsa_signature sg ++ rest)
    = Ok (pk, keyid, sg, rest).
Proof.
  intros HP HS HK. unfold ake_read_proof.
  rewrite read_public_key_write by assumption. cbn [as_ake bind].
  rewrite read_u32_write by lia. cbn [as_ake bind].
  destruct (N.eqb_spec keyid 0); [lia|]. cbn [negb check_ake bind].
  rewrite read_dsa_signature_write by assumption. reflexivity.
Qed.

Lemma read_proof_safe x : ake_read_proof C x <> Panic.
Proof.
  unfold ake_read_proof. apply bind_no_panic.
  { intros H. apply as_ake_panic in H. now apply read_public_key_safe in H. }
  intros [pk r1] _. apply bind_no_panic.
  { intros H. apply as_ake_panic in H. now apply read_u32_safe in H. }
  intros [kid r2] _. apply bind_no_panic; [apply check_ake_safe|]. intros _ _. apply bind_no_panic.
  { intros H. apply as_ake_panic in H. now apply read_dsa_signature_safe in H. }
  intros [sg r3] _. discriminate.
Qed.

Lemma dsa_validate_safe pk sg d : dsa_validate C pk sg d <> Panic.
Proof. unfold dsa_validate, of_bool. now destruct (c_dsa_verify _ _ _ _). Qed.

(* what an honest party sends is a proof *)
Lemma prove_read k nonce ek mk m enc mac :
  dsa_key_ok C k -> ake_prove C k nonce ek mk m = (enc, mac) ->
  mac = hmac160 C mk (write_data enc) /\
  ake_read_proof C (aes_crypt C ek zero_nonce enc) = Ok (dsa_pk k, AKE_KEYID, dsa_sign C k nonce m, []) /\
  dsa_validate C (dsa_pk k) (dsa_sign C k nonce m) m = Ok tt.
Proof.
  intros [HP HS]. unfold ake_prove. intros [= <- <-]. split; [reflexivity|].
  rewrite aes_crypt_involutive. split.
  - rewrite <- (app_nil_r (write_dsa_signature _)).
    apply read_proof_write; [exact HP| |unfold AKE_KEYID; lia]. apply HS.
  - unfold dsa_validate, dsa_sign. now rewrite (proj2 (HS nonce _)).
Qed.

(** ** the two messages that complete an exchange *)

Lemma reveal_result_ok host nonce our ge gh m mat sg :
  0 < c_dh_g C ->
  reveal_result C host nonce our ge gh m = Ok (mat, sg) ->
  exists gx rest,
    let gxmpi := aes_crypt C (rv_key m) (repeat x00 16) ge in
    let s := modpow gx (dh_private our) (c_dh_p C) in
    sha256 C gxmpi = gh /\ (exists more, read_mpi gxmpi = Ok (gx, more)) /\ dh_public_ok C gx /\
    identity_proof3 C false s gx (dh_public our) (am_their_dsa mat) (rv_signature_encrypted m)
      (rv_signature_mac m) rest /\
    am_ssid mat = firstn 8 (derived3 C x00 s) /\ am_our_dh mat = our /\ am_their_dh mat = gx.
Proof.
  intros HG. unfold reveal_result. intros H.
  bind_inv H. apply check_ake_ok, ct_compare_iff in E. destruct E as [E _].
  bind_inv H. apply as_ake_ok in E0. bind_inv H. apply check_ake_ok in E1.
  bind_inv H. apply check_ake_ok, ct_compare_iff in E2. destruct E2 as [E2 E2'].
  bind_inv H. destruct p as [[pk keyid] sig]. apply read_proof_ok in E3. destruct E3 as (tail & E3 & E4 & E5).
  bind_inv H. apply as_ake_ok in E6. destruct x2.
  destruct host as [k|]; [|discriminate].
  destruct (ake_prove _ _ _ _ _ _) as [ea ma]. injection H as <- <-.
  exists n, l0. cbn zeta. cbn [am_their_dsa am_ssid am_our_dh am_their_dh].
  split; [exact E|]. split; [eauto|]. split; [now apply dh_verify_iff|]. split; [|auto].
  unfold identity_proof3. split; [now rewrite <- E2|]. split; [now rewrite <- E2|].
  exists keyid, sig, tail. repeat split; try assumption; try tauto; lia.
Qed.

Lemma signature_result_ok our gy s m mat :
  signature_result C our gy s m = Ok mat ->
  identity_proof3 C true s gy (dh_public our) (am_their_dsa mat) (sg_signature_encrypted m)
    (sg_signature_mac m) [] /\
  am_ssid mat = firstn 8 (derived3 C x00 s) /\ am_our_dh mat = our /\ am_their_dh mat = gy.
Proof.
  unfold signature_result. intros H.
  bind_inv H. apply check_ake_ok, ct_compare_iff in E. destruct E as [E E'].
  bind_inv H. destruct p as [[pk keyid] sig]. apply read_proof_ok in E0. destruct E0 as (tail & E3 & E4 & E5).
  bind_inv H. apply as_ake_ok in E0. destruct l; [|discriminate].
  bind_inv H. apply as_ake_ok in E1. destruct x1. injection H as <-.
  cbn [am_their_dsa am_ssid am_our_dh am_their_dh]. split; [|auto].
  split; [exact E|]. split; [exact E'|]. exists keyid, sig, tail. repeat split; try assumption; lia.
Qed.

Lemma reveal_result_safe k nonce our ge gh m : reveal_result C (Some k) nonce our ge gh m <> Panic.
Proof.
  unfold reveal_result. apply bind_no_panic; [apply check_ake_safe|]. intros _ _. apply bind_no_panic.
  { intros H. apply as_ake_panic in H. now apply read_mpi_safe in H. }
  intros [gx r] _. apply bind_no_panic; [apply check_ake_safe|]. intros _ _.
  apply bind_no_panic; [apply check_ake_safe|]. intros _ _.
  apply bind_no_panic; [apply read_proof_safe|]. intros [[[pk kid] sg] r1] _. apply bind_no_panic.
  { intros H. apply as_ake_panic in H. now apply dsa_validate_safe in H. }
  intros _ _. destruct (ake_prove _ _ _ _ _ _). discriminate.
Qed.
Lemma signature_result_safe our gy s m : signature_result C our gy s m <> Panic.
Proof.
  unfold signature_result. apply bind_no_panic; [apply check_ake_safe|]. intros _ _.
  apply bind_no_panic; [apply read_proof_safe|]. intros [[[pk kid] sg] r1] _. apply bind_no_panic.
  { destruct r1; discriminate. }
  intros _ _. apply bind_no_panic.
  { intros H. apply as_ake_panic in H. now apply dsa_validate_safe in H. }
  discriminate.
Qed.

(** ** histories *)

Definition ake_inv (st : ake_state) : Prop :=
  match st with
  | AkeNone => True
  | AkeAwaitingDHKey our _ | AkeAwaitingRevealSig our _ _ => our = dh_new C (dh_private our)
  | AkeAwaitingSig our gy s _ =>
      our = dh_new C (dh_private our) /\ dh_verify_public_key C gy = true /\ s = dh_shared C our gy
  end.

Lemma dh_generate_ok rnd our : dh_generate C rnd = Ok our -> our = dh_new C rnd /\ rnd <> 0.
Proof. unfold dh_generate. destruct (N.eqb_spec rnd 0); [discriminate|]. intros [= <-]. auto. Qed.

Lemma from_initial_inv st m rnd st' r :
  dhcommit_from_initial C st m rnd = (st', r) -> r <> Panic ->
  exists our, our = dh_new C rnd /\ rnd <> 0 /\
    st' = AkeAwaitingRevealSig our (dc_gx_encrypted m) (dc_gx_hashed m) /\
    r = Ok (ReplyKey (mkDHKey (dh_public our))).
Proof.
  unfold dhcommit_from_initial. destruct (dh_generate C rnd) as [our|e|] eqn:E; intros [= <- <-] HP.
  - apply dh_generate_ok in E. exists our. tauto.
  - unfold dh_generate in E. destruct (rnd =? 0); discriminate.
  - congruence.
Qed.

Lemma ake_run_inv host st : ake_run C host st -> ake_inv st.
Proof.
  induction 1 as [|st rnd r st' m H IH E|st st' H IH E|st m rnd st' r H IH E P|st m nonce st' r H IH E P
                 |st m nonce st' r H IH E P|st m st' r H IH E P]; [exact I| | | | | |].
  - unfold ake_initiate in E. bind_inv E. apply dh_generate_ok in E0. destruct E0 as [-> _].
    injection E as <- <-. reflexivity.
  - destruct st; try discriminate. injection E as <-. exact IH.
  - destruct st as [|our r0|our ge gh|our gy s prev]; cbn [ake_handle_dhcommit] in E.
    + destruct (from_initial_inv _ _ _ _ _ E P) as (our & -> & _ & -> & _). reflexivity.
    + destruct (_ <? _); [injection E as <- <-; exact IH|].
      destruct (from_initial_inv _ _ _ _ _ E P) as (our' & -> & _ & -> & _). reflexivity.
    + injection E as <- <-. exact IH.
    + destruct (from_initial_inv _ _ _ _ _ E P) as (our' & -> & _ & -> & _). reflexivity.
  - destruct st as [|our r0|our ge gh|our gy s prev]; cbn [ake_handle_dhkey] in E;
      try (injection E as <- <-; exact IH).
    + destruct (dh_verify_public_key C (dk_gy m)) eqn:V; cbn [negb] in E; [|injection E as <- <-; exact IH].
      destruct host as [k|]; [|injection E as <- <-; exact IH].
      destruct (ake_prove _ _ _ _ _ _) as [eb mb]. injection E as <- <-. cbn. auto.
    + destruct (negb _); injection E as <- <-; exact IH.
  - destruct st; cbn [ake_handle_reveal] in E; try (injection E as <- <-; exact IH).
    destruct (reveal_result _ _ _ _ _ _ _); injection E as <- <-; [exact I|exact IH|exact IH].
  - destruct st; cbn [ake_handle_signature] in E; try (injection E as <- <-; exact IH).
    destruct (signature_result _ _ _ _ _); injection E as <- <-; [exact I|exact IH|exact IH].
Qed.

End WithCrypto.
