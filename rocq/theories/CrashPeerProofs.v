(* Payloads with which others do crash a session. *)
From Verif Require Import Base BaseLemmas Types Crypto CryptoProofs Encoding EncodingProofs ClientProfile ClientProfileProofs Messages MessagesProofs
  Base64 Fragment FragmentProofs AssemblerProofs KeyManager KeyManagerProofs DataV3 DataV3Proofs Ratchet DataV4 DataV4Proofs AKE AKEProofs DAKE
  DAKEProofs SMP SMP4
  Protocol Session SpecWire SpecCurve SpecData3 SpecData4 SpecSMP SpecSMP4 SpecDAKE SpecSession RingProofs SMPSafeProofs WireLemmas
  History3Proofs SMP4HistProofs SMP4Lemmas SessionProofs SessionInvProofs SessionRecvProofs SessionHistProofs SessionSendProofs SessionLemmas
  SpecCrash CrashProofs CrashDataProofs CrashSmpProofs CrashKexProofs CrashInstProofs CrashSafeProofs CrashSessionProofs.
From Verif Require SpecFragment FragmentLemmas.
From Coq Require Import Lia ZifyN ZifyNat.
Local Open Scope N_scope.

(** ** Fragments with large numbers *)

Lemma u16_large n : 65536 <= n < 100000 -> parse_u16 (dec_digits 5 n) = Panic.
Proof.
  intros H. unfold parse_u16. rewrite dec_digits_num by (cbn; lia).
  now rewrite (proj2 (N.ltb_ge _ _) (proj1 H)).
Qed.
Lemma large_number f : (fr_version f = V3 \/ fr_version f = V4) -> fr_payload f <> [] ->
  Forall SpecFragment.fragment_char (fr_payload f) -> fr_part f < 100000 -> fr_total f < 100000 ->
  65536 <= fr_part f \/ 65536 <= fr_total f ->
  match_fragment (fragment_text f) = true /\ parse_fragment (fragment_text f) = Panic.
Proof.
  intros Hv Hne Hpl Hp Ht Hi. change (fragment_text f) with (frag_text f). split; [apply text_is_fragment|].
  apply payload_chars in Hpl.
  assert (Hlen : (1 <= length (fr_payload f))%nat) by (destruct (fr_payload f); cbn; [congruence|lia]).
  assert (B : forall v i, build_fragment v (mkCaptures i (hex_digits 8 (fr_sender f)) (hex_digits 8 (fr_receiver f))
                      (dec_digits 5 (fr_part f)) (dec_digits 5 (fr_total f)) (fr_payload f)) = Panic).
  { intros v i. unfold build_fragment.
    cbn [ca_part ca_total ca_sender ca_receiver ca_id ca_payload].
    destruct (N.lt_ge_cases (fr_part f) 65536) as [L|L]; [rewrite parse_u16_dec by exact L|now rewrite u16_large by lia].
    cbn [bind]. now rewrite u16_large by lia. }
  unfold parse_fragment. destruct Hv as [E|E].
  - destruct (search match_v4 (frag_text f)) eqn:E4.
    + apply search_v4_bars in E4. unfold frag_text in E4. rewrite E in E4.
      rewrite !count_occ_app in E4.
      rewrite !(count_bar_class is_hex _ eq_refl (hex_digits_class _ _)) in E4.
      rewrite !(count_bar_class is_dec _ eq_refl (dec_digits_class _ _)) in E4.
      rewrite (count_bar_class is_payload _ eq_refl Hpl) in E4.
      cbn in E4. lia.
    + erewrite search_here.
      2:{ unfold match_v3, frag_text. rewrite starts_with_app, E, skip_prefix.
          change OTR_FRAGMENT_SUFFIX with (COMMA :: []). cbn [app].
          rewrite match_tail_run; [reflexivity|..];
            rewrite ?hex_digits_length, ?dec_digits_length;
            auto using hex_digits_class, dec_digits_class; lia. }
      apply B.
  - erewrite search_here.
    2:{ unfold match_v4, frag_text. rewrite starts_with_app, E, skip_prefix.
        change OTR_FRAGMENT_SUFFIX with (COMMA :: []).
        rewrite <- app_assoc. cbn [app].
        rewrite match_field_run; [|auto using hex_digits_class|reflexivity|rewrite hex_digits_length; lia
          |rewrite hex_digits_length; lia]. cbn [obind].
        rewrite match_tail_run; [reflexivity|..];
          rewrite ?hex_digits_length, ?dec_digits_length;
          auto using hex_digits_class, dec_digits_class; lia. }
    apply B.
Qed.

Section WithCrypto.
Context (C : Crypto).

Lemma fragment_crashes d h s e f : history C d h s -> enabled d -> (fr_version f = V3 \/ fr_version f = V4) ->
  fr_payload f <> [] -> Forall SpecFragment.fragment_char (fr_payload f) -> fr_part f < 100000 -> fr_total f < 100000 ->
  65536 <= fr_part f \/ 65536 <= fr_total f -> snd (receive C e s (fragment_text f)) = Panic.
Proof.
  intros H EN V NE FC P T L. apply SessionSendProofs.history_inv in H. destruct H as [_ DE].
  destruct (large_number f V NE FC P T L) as [M PA]. unfold receive. cbv zeta.
  rewrite DE, (enabled_not_disabled d EN), M, PA. reflexivity.
Qed.

(** ** Texts *)

Lemma text_crashes d h s e p : history C d h s -> enabled d -> match_fragment p = false -> parse C p = Panic ->
  snd (receive C e s p) = Panic.
Proof.
  intros H EN M P. apply SessionSendProofs.history_inv in H. destruct H as [_ DE]. unfold receive. cbv zeta.
  rewrite DE, (enabled_not_disabled d EN), M. unfold receive_message. now rewrite P.
Qed.

(** ** Encoded messages *)

Lemma addressed_header d em : addressed d em -> (em_version em = V3 \/ em_version em = V4) -> verify_header d em = Ok tt.
Proof.
  intros (S & R & D) V. unfold verify_header, tag_verify. rewrite R.
  replace (em_sender em <? INSTANCE_MIN_VALID) with false by (symmetry; apply N.ltb_ge; exact S).
  replace (de_tag d <? INSTANCE_MIN_VALID) with false by (symmetry; apply N.ltb_ge; exact D).
  rewrite !andb_false_r. cbn [bind]. replace (em_sender em =? 0) with false by (symmetry; apply N.eqb_neq; lia).
  replace (de_tag d =? 0) with false by (symmetry; apply N.eqb_neq; lia). rewrite N.eqb_refl. cbn [andb negb].
  now destruct V as [-> | ->].
Qed.

Lemma carried_crash d h s e p em : history C d h s -> carries C s p em -> addressed d em -> allowed d (em_version em) ->
  (forall k, em_message em <> MDHKey k) -> (forall k, em_message em <> MAuthR k) ->
  (forall i, let j := entry (em_sender em) (se_instances s) in
     in_state i = in_state j -> in_ake i = in_ake j -> in_dake i = in_dake j -> snd (inst_handle C d e i em) = Panic) ->
  snd (receive C e s p) = Panic.
Proof.
  intros H (b & CO & P) AD AL N1 N2 K. apply SessionSendProofs.history_inv in H. destruct H as [I DE].
  assert (EN : enabled d) by (unfold enabled; destruct (em_version em); try contradiction; auto).
  assert (V : em_version em = V3 \/ em_version em = V4) by (destruct (em_version em); try contradiction; auto).
  assert (M : forall s1, se_details s1 = d -> (forall t, let i := entry t (se_instances s1) in let j := entry t (se_instances s) in
     in_state i = in_state j /\ in_ake i = in_ake j /\ in_dake i = in_dake j) -> snd (receive_message C e s1 b) = Panic).
  { intros s1 D1 S1. unfold receive_message. rewrite P. unfold receive_encoded. cbv zeta. rewrite D1.
    replace (em_sender em =? 0) with false by (symmetry; apply N.eqb_neq; destruct AD; lia).
    rewrite (addressed_header d em AD V).
    replace (version_eqb (em_version em) V3 && negb (allow_v3 (de_policy d)) || version_eqb (em_version em) V4 && negb (allow_v4 (de_policy d)))
      with false by (symmetry; destruct V as [E|E]; rewrite E in *; cbn in AL |- *; rewrite AL; reflexivity).
    assert (O : snd (on_entry s1 (em_sender em) (fun i => inst_handle C d e i em)) = Panic).
    { destruct (S1 (em_sender em)) as (A1 & A2 & A3). specialize (K _ A1 A2 A3). unfold on_entry.
      destruct (inst_handle C d e _ em) as [[i' o] r]. cbn [snd] in K. now subst r. }
    destruct (em_version em); try exact O; destruct (em_message em) as [|m|m|m|m|m|m|m|m|m]; try exact O;
      [now elim (N1 m)|now elim (N2 m)]. }
  unfold receive. cbv zeta. rewrite DE, (enabled_not_disabled d EN).
  destruct CO as [(MF & ->)|(f & a & MF & PF & VF & RC & A & MB)].
  - rewrite MF. apply M; auto.
  - rewrite MF, PF, VF. cbn [negb]. rewrite DE in RC.
    replace (negb (fr_receiver f =? 0) && negb (fr_receiver f =? de_tag d)) with false.
    2: { symmetry. destruct RC as [-> | ->]; [reflexivity|]. rewrite N.eqb_refl. apply andb_false_r. }
    rewrite A, MB.
    assert (ES : stored s p = put s (fr_sender f) (set_assembler (entry (fr_sender f) (se_instances s)) a)).
    { unfold stored. rewrite MF, PF. cbv zeta. now rewrite A. }
    rewrite <- ES.
    assert (X : snd (receive_message C e (stored s p) b) = Panic).
    { apply M; [now rewrite stored_details|]. intros t. destruct (stored_entry s p t) as (A1 & A2 & A3 & _). auto. }
    destruct (receive_message C e (stored s p) b) as [[s2 o2] r2]. cbn [snd] in X. now subst r2.
Qed.

(* a data message of OTRv4 with an all-zero authenticator *)
Lemma authenticator_crashes d h s e p em m : history C d h s -> carries C s p em -> addressed d em ->
  allowed d V4 -> em_version em = V4 -> em_message em = MData4 m ->
  data4_validate C (mkData4 (d4_ignore_unreadable m) (d4_pn m) (d4_i m) (d4_j m) (d4_ecdh m) (d4_dh m) (d4_encrypted m)
     (repeat xff 64) (d4_revealed m)) = Ok tt ->
  all_zero (d4_authenticator m) = true -> snd (receive C e s p) = Panic.
Proof.
  intros H CA AD AL V M OK Z. apply (carried_crash d h s e p em); try assumption; try (rewrite M; discriminate); [now rewrite V|].
  cbv zeta. intros i _ _ _. unfold inst_handle. rewrite V, M. cbv beta iota zeta. unfold inst_data4.
  replace (data4_validate C m) with (@Panic unit); [reflexivity|]. symmetry. revert OK. unfold data4_validate.
  cbn [d4_i d4_j d4_dh d4_ecdh d4_revealed d4_authenticator]. rewrite Z. destruct (negb _); [discriminate|].
  destruct (match d4_dh m with Some v => of_bool (dh3_verify C v) | None => Ok tt end) as [[]|?|]; cbn [bind]; try discriminate.
  destruct (of_bool (pt_verify C (d4_ecdh m))) as [[]|?|]; cbn [bind]; try discriminate. destruct (negb _); [discriminate|].
  destruct (_ && _); [discriminate|reflexivity].
Qed.

(* the end of an OTRv3 exchange while an OTRv4 conversation is going on *)
Lemma second_start_crashes d h s e p em m our gy sh previous mat : history C d h s -> carries C s p em -> addressed d em ->
  allowed d V3 -> em_version em = V3 -> em_message em = MSignature m ->
  (exists o t k smp, state_of s (em_sender em) = PEnc4 o t k smp) ->
  in_ake (entry (em_sender em) (se_instances s)) = AkeAwaitingSig our gy sh previous ->
  signature_result C our gy sh m = Ok mat -> snd (receive C e s p) = Panic.
Proof.
  intros H CA AD AL V M (o & t & k & smp & ST) AK SR.
  apply (carried_crash d h s e p em); try assumption; try (rewrite M; discriminate); [now rewrite V|].
  cbv zeta. intros i I1 I2 I3. rewrite entry_state in I1. unfold inst_handle. rewrite V, M. cbv beta iota zeta. cbn [in_ake set_assembler].
  rewrite I2, AK. unfold ake_handle_signature. rewrite SR. unfold secure. cbn [in_state set_ake set_assembler].
  rewrite I1, ST. reflexivity.
Qed.

(* an OTRv3 data message for a pair of equal public keys *)
Lemma equal_keys_crash d h s e p em m our their k smp x : history C d h s -> carries C s p em -> addressed d em ->
  allowed d V3 -> em_version em = V3 -> em_message em = MData m ->
  state_of s (em_sender em) = PEnc3 our their k smp ->
  own_key3 k (d3_receiver_keyid m) x -> peer_key3 k (d3_sender_keyid m) (dh_public x) ->
  kr_ack (km_ours k) < LAST32 -> snd (receive C e s p) = Panic.
Proof.
  intros H CA AD AL V M ST (O1 & O2 & O3) (P1 & P2 & P3) L.
  apply (carried_crash d h s e p em); try assumption; try (rewrite M; discriminate); [now rewrite V|].
  cbv zeta. intros i I1 I2 I3. rewrite entry_state in I1. unfold inst_handle. rewrite V, M. cbv beta iota zeta.
  unfold inst_data3. cbn [in_state set_assembler]. rewrite I1, ST. cbn [p_handle3].
  assert (PS : pr_select (km_theirs k) (d3_sender_keyid m) = Ok (dh_public x)).
  { unfold pr_select. destruct (N.eqb_spec (d3_sender_keyid m) 0); [contradiction|].
    destruct (N.eqb_spec (pr_id (km_theirs k)) 0); [lia|]. rewrite P3.
    destruct P2 as [-> | <-]; [now rewrite N.eqb_refl, orb_true_r|]. replace (d3_sender_keyid m + 1 - 1) with (d3_sender_keyid m) by lia.
    now rewrite N.eqb_refl. }
  assert (KS : kr_select (km_ours k) (d3_receiver_keyid m) = Ok x).
  { unfold kr_select. destruct (N.eqb_spec (d3_receiver_keyid m) 0); [contradiction|].
    destruct (N.eqb_spec (kr_ack (km_ours k)) (d3_receiver_keyid m)) as [E|N]; [now rewrite O3|].
    destruct O2 as [O2|O2]; [congruence|]. unfold u32_succ. unfold LAST32 in L.
    destruct (N.eqb_spec (kr_ack (km_ours k)) 4294967295); [lia|]. cbn [bind].
    rewrite <- O2, N.eqb_refl. now rewrite O3. }
  unfold decrypt3. rewrite PS. cbn [keep]. rewrite KS. cbn [keep]. unfold data_derive. rewrite N.eqb_refl. reflexivity.
Qed.

(* an Identity message whose key Y is the client's own identity key, or whose profile has it as forging key *)
Lemma own_key_crashes (GS : groups_sound C) d h s e p em m bob own alice : history C d h s -> carries C s p em -> addressed d em ->
  allowed d V4 -> em_version em = V4 -> em_message em = MIdentity m ->
  offer_ok C (id_profile m) bob (id_y m) (id_b m) (id_ecdh0 m) (id_dh0 m) ->
  answers4 C (in_dake (entry (em_sender em) (se_instances s))) m ->
  decode_profile C (ev_profile e) = Ok own -> payload_accepted C own alice ->
  pt_valid C (ed_public (ev_identity e)) -> pt_verify C (ed_public (ev_identity e)) = true ->
  pt_verify C (cp_forging bob) = true ->
  id_y m = ed_public (ev_identity e) \/ cp_forging bob = ed_public (ev_identity e) ->
  snd (receive C e s p) = Panic.
Proof.
  intros H CA AD AL V M OF AN DP PA PV VV VF EQ.
  assert (WI : wire_in C em). { destruct CA as (b & _ & P). now apply (parse_in C (proj1 GS)) in P. }
  unfold wire_in in WI. rewrite V, M in WI. destruct WI as (PF & VY & _).
  apply (carried_crash d h s e p em); try assumption; try (rewrite M; discriminate); [now rewrite V|].
  cbv zeta. intros i I1 I2 I3. unfold inst_handle. rewrite V, M. cbv beta iota zeta. rewrite I3.
  set (st := in_dake (entry (em_sender em) (se_instances s))) in *.
  assert (A : answer_identity C (ev_dake_host e) (ev_dake e) (ev_ring e) m bob (de_account d) (de_address d) = Panic).
  { unfold answer_identity. cbv zeta. cbn [ev_dake_host dh_profile dh_identity]. rewrite DP. cbn [bind].
    destruct (ecdh_generate C (dn_ecdh (ev_dake e))) as [x|?|] eqn:X; cbn [bind]; [|now apply ecdh_not_err in X|reflexivity].
    rewrite (proj2 (payload_validate_iff C own alice) PA). cbn [bind].
    destruct (ecdh_generate C (dn_ecdh0 (ev_dake e))) as [x0|?|] eqn:X0; cbn [bind]; [|now apply ecdh_not_err in X0|reflexivity].
    match goal with |- bind ?r _ = _ => replace r with (@Panic ring_sig); [reflexivity|symmetry] end.
    unfold ring_sign. cbv zeta. destruct OF as (PB & VI & _). rewrite VF, VV, VI. cbn [of_bool bind].
    pose proof (verified_encode C (proj1 GS) _ (PF bob PB) VF) as Z1. pose proof (verified_encode C (proj1 GS) _ PV VV) as Z2.
    pose proof (verified_encode C (proj1 GS) _ VY VI) as Z3.
    unfold same_point. rewrite Z1, Z2, Z3. cbn [orb bind].
    replace (negb _) with true; [reflexivity|]. symmetry. apply negb_true_iff, Z.eqb_neq.
    destruct EQ as [-> | ->]; rewrite ?bytes_eqb_refl; unfold b2z; repeat destruct (bytes_eqb _ _); lia. }
  unfold dake_handle_identity, identity_validate. rewrite (proj2 (validate_keys_iff C _ _ _ _ _ _) OF), A. cbv zeta.
  destruct st as [|w|w]; try reflexivity. cbn in AN. unfold hashed_b.
  replace (_ <? _) with false by (symmetry; now apply N.ltb_ge). reflexivity.
Qed.

(* an Auth-I message whose challenges add up to zero *)
Lemma zero_challenge_crashes d h s e p em m w bob alice : history C d h s -> carries C s p em -> addressed d em ->
  allowed d V4 -> em_version em = V4 -> em_message em = MAuthI m ->
  in_dake (entry (em_sender em) (se_instances s)) = DakeAwaitingAuthI w ->
  payload_accepted C (wi_profile_bob w) bob -> payload_accepted C (wi_profile_alice w) alice ->
  ring_peer C (ai_sigma m) ->
  ~ ring_chance C (ai_sigma m) (cp_identity bob) (cp_forging alice) (wi_x w)
      (auth_i_text C (alice_view w bob alice (de_account d) (de_address d))) ->
  snd (receive C e s p) = Panic.
Proof.
  intros H CA AD AL V M DK PB PA RP NC.
  apply (carried_crash d h s e p em); try assumption; try (rewrite M; discriminate); [now rewrite V|].
  cbv zeta. intros i I1 I2 I3. unfold inst_handle. rewrite V, M. cbv beta iota zeta. rewrite I3, DK. unfold dake_handle_auth_i.
  rewrite (proj2 (payload_validate_iff C _ _) PA), (proj2 (payload_validate_iff C _ _) PB). cbn [bind]. cbv zeta.
  pose (v := alice_view w bob alice (de_account d) (de_address d)).
  match goal with |- context [ring_validate C _ _ _ _ ?t] =>
    replace t with (auth_i_text C v) by (rewrite <- (auth_i_text_eq C v); reflexivity) end.
  replace (ring_validate C (ai_sigma m) (cp_identity bob) (cp_forging alice) (wi_x w) (auth_i_text C v)) with (@Panic unit); [reflexivity|].
  symmetry. unfold ring_validate. cbv zeta. unfold ring_peer in RP. rewrite RP.
  destruct (hash_to_scalar C USAGE_AUTH _) as [c|x|] eqn:HS; cbn [bind].
  - unfold compare_scalars. replace (c =? 0)%Z with false; [reflexivity|]. symmetry. apply Z.eqb_neq. intros ->.
    apply NC. apply hash_ok in HS. unfold ring_chance, zero_scalar. rewrite <- ring_text_eq. symmetry. exact HS.
  - exfalso. revert HS. unfold hash_to_scalar, decode_scalar. destruct (all_zero _); discriminate.
  - reflexivity.
Qed.

End WithCrypto.
