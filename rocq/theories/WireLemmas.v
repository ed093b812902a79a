(* The combined statements used by Properties_Wire.v. *)
From Verif Require Import Base BaseLemmas Types Crypto CryptoProofs Encoding EncodingProofs Base64
  Base64Proofs ClientProfile ClientProfileProofs Messages MessagesProofs SpecWire ToyCrypto.
From Coq Require Import Lia.
Local Open Scope N_scope.

Lemma tlvs_round_trip :
  (forall t rest, tlv_range t -> exists b, write_tlv t = Ok b /\ read_tlv (b ++ rest) = Ok (t, rest))
  /\ (forall ts, Forall tlv_range ts ->
        concat_res write_tlv ts = Ok (concat (map tlv_bytes ts))
        /\ read_tlvs (concat (map tlv_bytes ts)) = Ok ts).
Proof.
  split.
  - intros t rest H. exists (tlv_bytes t). split; [apply write_tlv_ok, H|now apply read_tlv_write].
  - intros ts H. split; [|now apply read_tlvs_write].
    induction H as [|t ts Ht _ IH]; [reflexivity|]. cbn [concat_res].
    rewrite write_tlv_ok by apply Ht. rewrite IH. reflexivity.
Qed.

Lemma scalar_reader_not_safe C : ~ reader_safe (read_ed448_scalar C).
Proof. intros H. apply (H (repeat x00 57 ++ [])). apply read_ed448_scalar_panic. now exists []. Qed.

Lemma readers_exact C :
  (forall buf v rest, read_u8 buf = Ok (v, rest) -> buf = [v] ++ rest)
  /\ (forall buf v rest, read_u16 buf = Ok (v, rest) -> u16_range v /\ buf = be_bytes 2 v ++ rest)
  /\ (forall buf v rest, read_u32 buf = Ok (v, rest) -> u32_range v /\ buf = be_bytes 4 v ++ rest)
  /\ (forall buf z rest, read_i64 buf = Ok (z, rest) -> i64_range z /\ buf = write_i64 z ++ rest)
  /\ (forall buf t rest, read_instance_tag buf = Ok (t, rest) -> legal_tag t /\ buf = be_bytes 4 t ++ rest)
  /\ (forall buf v rest, read_data buf = Ok (v, rest) ->
        fits32 v /\ buf = be_bytes 4 (N.of_nat (length v)) ++ v ++ rest)
  /\ (forall buf v rest, read_mpi buf = Ok (v, rest) ->
        exists digits, fits32 digits /\ buf = be_bytes 4 (N.of_nat (length digits)) ++ digits ++ rest
          /\ v = be_val digits)
  /\ (forall n buf v rest, read_fixed n buf = Ok (v, rest) -> buf = v ++ rest /\ length v = n)
  /\ (forall buf t rest, read_tlv buf = Ok (t, rest) -> tlv_range t /\ buf = tlv_bytes t ++ rest)
  /\ (forall buf ts, read_tlvs buf = Ok ts -> Forall tlv_range ts /\ buf = concat (map tlv_bytes ts))
  /\ (forall buf v rest, read_bytes_null_terminated buf = (v, rest) ->
        ~ In x00 v /\ (buf = v ++ x00 :: rest \/ (buf = v /\ rest = [])))
  /\ (forall buf s rest, read_dsa_signature C buf = Ok (s, rest) ->
        dsa_sig_ok C s /\ buf = write_dsa_signature s ++ rest)
  /\ (forall buf s rest, read_ed448_signature buf = Ok (s, rest) ->
        ed_sig_ok s /\ buf = edsig_R s ++ edsig_s s ++ rest)
  /\ (forall buf k rest, read_public_key C buf = Ok (k, rest) ->
        dsa_pub_ok C k /\ exists pre, buf = pre ++ rest).
Proof.
  split; [exact read_u8_exact|]. split; [exact read_u16_exact|]. split; [exact read_u32_exact|].
  split; [exact read_i64_exact|]. split; [exact read_instance_tag_exact|].
  split.
  { intros buf v rest H. apply read_data_exact in H as [H ->]. split; [exact H|].
    unfold write_data. now rewrite <- app_assoc. }
  split; [exact read_mpi_ok|]. split; [exact read_fixed_exact|]. split; [exact read_tlv_exact|].
  split; [intros buf ts; apply read_tlvs_loop_exact|].
  split; [exact read_null_terminated_exact|]. split; [exact (read_dsa_signature_exact C)|].
  split.
  { intros buf s rest H. apply read_ed448_signature_exact in H as [H ->]. split; [exact H|].
    unfold write_ed_sig. now rewrite <- app_assoc. }
  exact (read_public_key_ok C).
Qed.

Lemma short_data_refused len rest :
  u32_range len -> N.of_nat (length rest) < len ->
  read_data (be_bytes 4 len ++ rest) = Err IncompleteMessage
  /\ read_mpi (be_bytes 4 len ++ rest) = Err IncompleteMessage.
Proof.
  intros H1 H2. unfold read_data, read_mpi.
  change (be_bytes 4 len) with (write_u32 len). rewrite read_u32_write by assumption. cbn [bind].
  destruct (N.ltb_spec (N.of_nat (length rest)) len); [|lia].
  destruct (N.eqb_spec len 0); [lia|]. auto.
Qed.

Lemma mpi_canonical :
  (forall a b r1 r2, mpi_range a -> mpi_range b -> write_mpi a ++ r1 = write_mpi b ++ r2 -> a = b /\ r1 = r2)
  /\ (forall v, v <> 0 -> exists b l, write_mpi v = be_bytes 4 (N.of_nat (S (length l))) ++ b :: l
        /\ b <> x00 /\ be_val (b :: l) = v)
  /\ write_mpi 0 = [x00; x00; x00; x00].
Proof.
  split; [exact write_mpi_prefix_free|]. split; [|reflexivity].
  intros v Hv. unfold write_mpi. destruct (N.eqb_spec v 0) as [->|_]; [congruence|].
  pose proof (be_val_minimal v) as HV.
  destruct (biguint_to_bytes_be v) as [|b l] eqn:E; [cbn in HV; congruence|].
  exists b, l. split; [reflexivity|]. split; [|exact HV]. eapply biguint_to_bytes_be_hd; eassumption.
Qed.

Lemma fingerprint_collision C a b :
  Forall mpi_range [dsa_p a; dsa_q a; dsa_g a; dsa_y a] ->
  Forall mpi_range [dsa_p b; dsa_q b; dsa_g b; dsa_y b] ->
  otr3_fingerprint C a = otr3_fingerprint C b -> a <> b ->
  exists x y, x <> y /\ sha1 C x = sha1 C y.
Proof.
  intros HA HB H HN. exists (skipn 2 (write_public_key a)), (skipn 2 (write_public_key b)).
  split; [|exact H]. intros E. apply HN.
  destruct (write_public_key_inj a b [] [] HA HB) as [-> _]; [|reflexivity].
  rewrite !app_nil_r. unfold write_public_key, write_u16 in *. rewrite !be_bytes_2 in *. cbn in E |- *.
  now rewrite E.
Qed.

Lemma accepted_stable C data m :
  (0 < c_ed_p C)%Z -> Z.odd (c_ed_p C) = true -> (0 < c_ed_q C <= 2 ^ 456)%Z ->
  parse C data = Ok (MsgEncoded m) -> rewritable (em_message m) ->
  wire_ok C m
  /\ exists text, serialize_message (MsgEncoded m) = Ok text /\ parse C text = Ok (MsgEncoded m).
Proof.
  intros HP HO Q H R.
  assert (D : decode_stable C) by (intros e p; now apply pt_decode_encode).
  assert (W : wire_ok C m); [|split; [exact W|now apply encoded_round_trip]].
  unfold parse in H. destruct (_ && _).
  - unfold parse_encoded_message in H. destruct (b64_decode _); [|discriminate].
    bind_inv H. injection H as <-. eapply read_encoded_message_ok; eassumption.
  - exfalso. unfold parse_plain_message in H.
    destruct (starts_with _ _); [discriminate|]. destruct (find_query data) as [[g|]|]; try discriminate.
    destruct (find_tag data) as [[[? gs] ?]|]; [|discriminate]. destruct (rev gs); discriminate.
Qed.

Lemma parse_crash_shapes C data :
  parse C data = Panic ->
  (looks_encoded data
     /\ exists buf t tags pre rest, data = OTR_ENCODED_PREFIX ++ buf ++ OTR_ENCODED_SUFFIX
        /\ (t = OTR_AUTHR_TYPE_CODE \/ t = OTR_AUTHI_TYPE_CODE) /\ length tags = 8%nat
        /\ b64_decode buf = Some ([x00; x04; t] ++ tags ++ pre ++ repeat x00 57 ++ rest))
  \/ bare_query data \/ bare_tag data.
Proof.
  intros H. destruct (starts_with OTR_ENCODED_PREFIX data && ends_with OTR_ENCODED_SUFFIX data) eqn:E.
  - left. apply looks_encoded_iff in E. split; [exact E|]. destruct E as (body & ->).
    rewrite parse_encoded_body in H. unfold parse_encoded_message in H.
    destruct (b64_decode body) as [buf|] eqn:EB; [|discriminate].
    destruct (read_encoded_message C buf) as [[m r]|e|] eqn:ER; cbn [bind] in H; try discriminate.
    apply read_encoded_message_panic in ER as (t & tags & pre & rest & H1 & H2 & ->).
    exists body, t, tags, pre, rest. auto.
  - right. apply parse_panic_inv in H as [H|H]; [|exact H].
    apply looks_encoded_iff in H. congruence.
Qed.

Lemma parse_can_crash C :
  (exists data, parse C data = Panic /\ ~ looks_encoded data)
  /\ parse C [x3f; x4f; x54; x52; x3f] = Panic
  /\ parse C ([x3f; x4f; x54; x52; x3f; x76; x32]) = Panic
  /\ parse C (WHITESPACE_PREFIX ++ [x68; x69]) = Panic
  /\ (exists buf, parse C (OTR_ENCODED_PREFIX ++ b64_encode buf ++ OTR_ENCODED_SUFFIX) = Panic).
Proof.
  split.
  { exists [x3f; x4f; x54; x52; x3f]. split; [reflexivity|]. intros (b & E). discriminate. }
  split; [reflexivity|]. split; [reflexivity|]. split; [reflexivity|].
  exists ([x00; x04; x37] ++ write_u32 256 ++ write_u32 256 ++ repeat x00 57).
  rewrite parse_encoded_body. unfold parse_encoded_message. rewrite b64_round_trip.
  reflexivity.
Qed.

Lemma error_round_trip C e :
  serialize_message (MsgError e) = Ok (OTR_ERROR_PREFIX ++ e)
  /\ parse C (OTR_ERROR_PREFIX ++ e) = Ok (MsgError e).
Proof. split; [reflexivity|apply parse_plain_error]. Qed.

Lemma query_round_trip_set C vs : supported vs -> vs <> [] ->
  exists text vs', serialize_message (MsgQuery vs) = Ok text /\ parse C text = Ok (MsgQuery vs')
    /\ NoDup vs' /\ (forall v, In v vs' <-> In v vs).
Proof.
  intros H1 H2. destruct (query_round_trip C vs H1 H2) as (s & E1 & E2).
  exists s, (vec_unique vs). repeat split; auto; try apply vec_unique_in.
  destruct (vec_unique_cases vs H1 H2) as [-> | [-> | ->]]; repeat constructor; cbn; intuition discriminate.
Qed.

Lemma query_reports C data vs :
  parse C data = Ok (MsgQuery vs) ->
  exists pre suf g, data = pre ++ suf /\ query_at suf (Some g)
    /\ vs = named_versions g
    /\ (In V3 vs <-> In x33 g) /\ (In V4 vs <-> In x34 g) /\ supported vs
    /\ (forall pre1 suf1 g1, data = pre1 ++ suf1 -> query_at suf1 g1 -> (length pre <= length pre1)%nat).
Proof.
  intros H. apply parse_query_inv in H as (pre & suf & g & H1 & H2 & H3 & H4).
  exists pre, suf, g. subst vs. pose proof (query_versions_in g) as (I1 & I2 & I3). auto 10.
Qed.

Lemma tagged_single C v text :
  (v = V3 \/ v = V4) -> ~ has_query text -> ~ has_tag text -> ~ group_at text ->
  exists s, serialize_message (MsgTagged [v] text) = Ok s /\ parse C s = Ok (MsgTagged [v] text).
Proof.
  intros Hv H1 H2 H3. destruct (tagged_parse C [v] text) as (s & E1 & E2); auto.
  - constructor; auto.
  - discriminate.
  - exists s. split; [exact E1|]. rewrite E2. destruct Hv as [-> | ->]; reflexivity.
Qed.

Lemma hi_unmarked : ~ has_query [x68; x69] /\ ~ has_tag [x68; x69] /\ ~ group_at [x68; x69].
Proof.
  split; [apply find_query_none; reflexivity|]. split; [apply find_tag_none; reflexivity|].
  intros H. apply group_at_iff in H as [H _]. discriminate.
Qed.

Lemma tagged_refuted C :
  (exists text s, serialize_message (MsgTagged [V3; V4] text) = Ok s /\ parse C s = Ok (MsgTagged [V4] text)
     /\ ~ has_query text /\ ~ has_tag text /\ ~ group_at text)
  /\ (exists text s, serialize_message (MsgTagged [V4] text) = Ok s /\ parse C s = Ok (MsgTagged [] [x68; x69])
     /\ text <> [x68; x69]).
Proof.
  split.
  - exists [x68; x69]. eexists. split; [reflexivity|]. split; [vm_compute; reflexivity|]. apply hi_unmarked.
  - exists (repeat x20 8 ++ [x68; x69]). eexists. split; [reflexivity|]. split; [vm_compute; reflexivity|discriminate].
Qed.

Lemma base64_lossless :
  (forall data, b64_decode (b64_encode data) = Some data)
  /\ (forall data, Forall b64_char (b64_encode data))
  /\ (forall a b, b64_encode a = b64_encode b -> a = b)
  /\ (forall data, length (b64_encode data) = (4 * ((length data + 2) / 3))%nat).
Proof.
  exact (conj b64_round_trip (conj b64_encode_chars (conj b64_encode_inj b64_encode_length))).
Qed.

Lemma decoded_profile_valid C buf p rest :
  (0 < c_ed_p C)%Z -> Z.odd (c_ed_p C) = true ->
  read_payload C buf = Ok (p, rest) ->
  payload_wire_ok C p /\ exists cp, payload_accepted C p cp.
Proof.
  intros HP HO H.
  assert (D : decode_stable C) by (intros e q; now apply pt_decode_encode).
  apply read_payload_wire_ok in H; [|exact D]. split; [exact H|]. apply H.
Qed.

Lemma signed_profile C p identity legacy nonce payload :
  profile_sign C p identity legacy nonce = Ok payload -> payload_accepted C payload p.
Proof.
  intros H. destruct (profile_sign_valid _ _ _ _ _ _ H) as (cp & HV).
  rewrite <- (profile_sign_same _ _ _ _ _ _ _ H HV). now apply payload_validate_iff.
Qed.

Definition ex_identity : eddsa_keypair :=
  match eddsa_of_symmetric toy [x01] with Ok k => k | _ => mkEddsa [] 0 pt_id end.
Definition ex_profile : client_profile :=
  mkProfile 256 (ed_public ex_identity) (c_ed_g toy) [V3; V4] 1000 (Some (dsa_pk (toy_dsa 5))).
Lemma ex_profile_signs : exists payload,
  profile_sign toy ex_profile ex_identity (Some (toy_dsa 5)) [] = Ok payload
  /\ payload_wire_ok toy payload.
Proof.
  destruct (profile_sign toy ex_profile ex_identity (Some (toy_dsa 5)) []) as [p|e|] eqn:E;
    [|vm_compute in E; discriminate|vm_compute in E; discriminate].
  exists p. split; [reflexivity|]. pose proof (signed_profile _ _ _ _ _ _ E) as A.
  split; [|split; [|split]].
  - vm_compute in E. injection E as <-. cbn [pl_fields].
    repeat (apply Forall_cons || apply Forall_nil); cbn [field_ok].
    + right. lia.
    + vm_compute. reflexivity.
    + vm_compute. reflexivity.
    + split; [repeat (apply Forall_cons || apply Forall_nil); auto|vm_compute; reflexivity].
    + split; vm_compute; congruence.
    + split; [|split; reflexivity]. repeat (apply Forall_cons || apply Forall_nil); vm_compute; reflexivity.
    + split; [|split]; vm_compute; reflexivity.
  - vm_compute in E. injection E as <-. vm_compute. reflexivity.
  - vm_compute in E. injection E as <-. split; reflexivity.
  - eauto.
Qed.
