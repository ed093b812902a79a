(* C01-C08, C33: the wire format.  Only statements, references to their proofs, and examples showing
   that the hypotheses are met. *)
From Verif Require Import Base BaseLemmas Types Crypto CryptoProofs Encoding EncodingProofs Base64
  Base64Proofs ClientProfile ClientProfileProofs Messages MessagesProofs SpecWire WireLemmas
  ToyCrypto SpecCurve PointProofs RingProofs ToyGroup.
From Coq Require Import Lia.
Local Open Scope N_scope.

(** * C01: wire values survive an encode/decode round trip *)

Theorem C01_integers_round_trip :
  (forall b rest, read_u8 (write_u8 b ++ rest) = Ok (b, rest))
  /\ (forall v rest, u16_range v -> read_u16 (write_u16 v ++ rest) = Ok (v, rest))
  /\ (forall v rest, u16_range v -> read_u16_le (write_u16_le v ++ rest) = Ok (v, rest))
  /\ (forall v rest, u32_range v -> read_u32 (write_u32 v ++ rest) = Ok (v, rest))
  /\ (forall z rest, i64_range z -> read_i64 (write_i64 z ++ rest) = Ok (z, rest))
  /\ (forall t rest, legal_tag t -> read_instance_tag (write_u32 t ++ rest) = Ok (t, rest)).
Proof.
  exact (conj read_u8_write (conj read_u16_write (conj read_u16_le_write (conj read_u32_write
    (conj read_i64_write read_instance_tag_write))))).
Qed.
Print Assumptions C01_integers_round_trip.

Theorem C01_blocks_round_trip :
  (forall v rest, fits32 v -> read_data (write_data v ++ rest) = Ok (v, rest))
  /\ (forall v rest, mpi_range v -> read_mpi (write_mpi v ++ rest) = Ok (v, rest))
  /\ (forall vs rest, Forall mpi_range vs -> N.of_nat (length vs) < 4294967296 ->
        read_mpi_sequence (write_mpi_sequence vs ++ rest) = Ok (vs, rest))
  /\ (forall n v rest, length v = n -> read_fixed n (v ++ rest) = Ok (v, rest))
  /\ (forall v rest, ~ In x00 v ->
        read_bytes_null_terminated (write_bytes_null_terminated v ++ rest) = (v, rest)).
Proof.
  exact (conj read_data_write (conj read_mpi_write (conj read_mpi_sequence_write
    (conj read_fixed_write read_null_terminated_write)))).
Qed.
Print Assumptions C01_blocks_round_trip.

(* A TLV list is written record by record and read back as the same list; a record whose value does
   not fit is refused by a crash of the writer, never truncated. *)
Theorem C01_tlvs_round_trip :
  (forall t rest, tlv_range t -> exists b, write_tlv t = Ok b /\ read_tlv (b ++ rest) = Ok (t, rest))
  /\ (forall ts, Forall tlv_range ts ->
        concat_res write_tlv ts = Ok (concat (map tlv_bytes ts))
        /\ read_tlvs (concat (map tlv_bytes ts)) = Ok ts).
Proof. exact tlvs_round_trip. Qed.
Print Assumptions C01_tlvs_round_trip.

Theorem C01_keys_and_signatures_round_trip : forall C,
  (forall k rest, dsa_pub_ok C k -> read_public_key C (write_public_key k ++ rest) = Ok (k, rest))
  /\ (forall s rest, dsa_sig_ok C s -> read_dsa_signature C (write_dsa_signature s ++ rest) = Ok (s, rest))
  /\ (forall s rest, ed_sig_ok s -> read_ed448_signature (write_ed_sig s ++ rest) = Ok (s, rest))
  /\ (forall p rest, point_wire_ok C p -> read_ed448_point C (write_ed448_point p ++ rest) = Ok (p, rest))
  /\ (forall s rest, scalar_range C s -> read_ed448_scalar C (write_ed448_scalar s ++ rest) = Ok (s, rest))
  /\ (forall s rest, ring_range C s -> read_ring_signature C (write_ring_signature s ++ rest) = Ok (s, rest)).
Proof.
  intros C. exact (conj (read_public_key_write C) (conj (read_dsa_signature_write C)
    (conj read_ed448_signature_write (conj (read_ed448_point_write C)
    (conj (read_ed448_scalar_write C) (read_ring_signature_write C)))))).
Qed.
Print Assumptions C01_keys_and_signatures_round_trip.

(* On a curve like Ed448 (its prime is 3 modulo 4) every point satisfies the condition on points above:
   exactly the points of the curve are encoded and decoded without loss. *)
Theorem C01_curve_points_round_trip : forall C,
  curve_ok C -> (c_ed_p C mod 4 = 3)%Z -> (c_ed_p C <= 2 ^ 448)%Z ->
  (forall p rest, pt_valid C p -> read_ed448_point C (write_ed448_point p ++ rest) = Ok (p, rest))
  /\ (forall buf p rest, read_ed448_point C buf = Ok (p, rest) -> pt_valid C p)
  /\ (forall p p', pt_valid C p -> pt_valid C p' -> write_ed448_point p = write_ed448_point p' -> p = p').
Proof. exact curve_points. Qed.
Print Assumptions C01_curve_points_round_trip.

Example C01_ex_curve : curve_ok toy /\ (c_ed_p toy mod 4 = 3)%Z /\ (c_ed_p toy <= 2 ^ 448)%Z /\ pt_valid toy (c_ed_g toy).
Proof. split; [exact toy_curve_ok|]. split; [reflexivity|]. split; [vm_compute; discriminate|]. apply toy_curve_ok. Qed.

Example C01_ex_mpi : mpi_range 305419896 /\ write_mpi 305419896 = [x00; x00; x00; x04; x12; x34; x56; x78].
Proof. split; [vm_compute; reflexivity|reflexivity]. Qed.
Example C01_ex_tlv : tlv_range (mkTlv 1 [x61; x62]).
Proof. split; vm_compute; reflexivity. Qed.
Example C01_ex_point : point_wire_ok toy (c_ed_g toy).
Proof. vm_compute. reflexivity. Qed.
Example C01_ex_ring : ring_range toy (mkRing 1 2 3 4 5 52).
Proof. repeat apply conj; vm_compute; reflexivity. Qed.
Example C01_ex_key : dsa_pub_ok toy (dsa_pk (toy_dsa 5)).
Proof. split; [|split; reflexivity]. repeat (apply Forall_cons || apply Forall_nil); vm_compute; reflexivity. Qed.

(** * C02: decoding untrusted bytes is safe *)

Theorem C02_readers_never_crash : forall C,
  reader_safe read_u8 /\ reader_safe read_u16 /\ reader_safe read_u16_le /\ reader_safe read_u32
  /\ reader_safe read_i64 /\ reader_safe read_instance_tag /\ reader_safe read_data
  /\ reader_safe read_mpi /\ reader_safe read_mpi_sequence /\ (forall n, reader_safe (read_fixed n))
  /\ reader_safe read_tlv /\ (forall buf, read_tlvs buf <> Panic)
  /\ reader_safe (read_public_key C) /\ reader_safe (read_dsa_signature C)
  /\ reader_safe read_ed448_signature /\ reader_safe (read_ed448_point C)
  /\ reader_safe (read_payload C).
Proof.
  intros C. exact (conj read_u8_safe (conj read_u16_safe (conj read_u16_le_safe (conj read_u32_safe
    (conj read_i64_safe (conj read_instance_tag_safe (conj read_data_safe (conj read_mpi_safe
    (conj read_mpi_sequence_safe (conj read_fixed_safe (conj read_tlv_safe
    (conj (fun buf => read_tlvs_loop_safe (length buf) buf)
    (conj (read_public_key_safe C) (conj (read_dsa_signature_safe C) (conj read_ed448_signature_safe
    (conj (read_ed448_point_safe C) (read_payload_safe C))))))))))))))))).
Qed.
Print Assumptions C02_readers_never_crash.

(* The exception: exactly the buffers that begin with 57 zero bytes crash the scalar reader. *)
Theorem C02_scalar_reader_crash : forall C buf,
  read_ed448_scalar C buf = Panic <-> exists rest, buf = repeat x00 57 ++ rest.
Proof. exact read_ed448_scalar_panic. Qed.
Print Assumptions C02_scalar_reader_crash.

Theorem C02_scalar_reader_safe_refuted : forall C, ~ reader_safe (read_ed448_scalar C).
Proof. exact scalar_reader_not_safe. Qed.
Print Assumptions C02_scalar_reader_safe_refuted.

(* What a reader consumed is exactly the encoding of what it returned (for MPIs and public keys,
   which tolerate leading zeros, a prefix of the stated length). *)
Theorem C02_readers_consume_what_they_return : forall C,
  (forall buf v rest, read_u8 buf = Ok (v, rest) -> buf = [v] ++ rest)
  /\ (forall buf v rest, read_u16 buf = Ok (v, rest) -> u16_range v /\ buf = be_bytes 2 v ++ rest)
  /\ (forall buf v rest, read_u32 buf = Ok (v, rest) -> u32_range v /\ buf = be_bytes 4 v ++ rest)
  /\ (forall buf z rest, read_i64 buf = Ok (z, rest) -> i64_range z /\ buf = write_i64 z ++ rest)
  /\ (forall buf t rest, read_instance_tag buf = Ok (t, rest) -> legal_tag t /\ buf = be_bytes 4 t ++ rest)
  /\ (forall buf v rest, read_data buf = Ok (v, rest) ->
        fits32 v /\ buf = be_bytes 4 (N.of_nat (length v)) ++ v ++ rest)
  /\ (forall buf v rest, read_mpi buf = Ok (v, rest) ->
        exists digits, fits32 digits /\ buf = be_bytes 4 (N.of_nat (length digits)) ++ digits ++ rest
          /\ v = be_val digits)
  /\ (forall n buf v rest, read_fixed n buf = Ok (v, rest) -> buf = v ++ rest /\ length v = n)
  /\ (forall buf t rest, read_tlv buf = Ok (t, rest) -> tlv_range t /\ buf = tlv_bytes t ++ rest)
  /\ (forall buf ts, read_tlvs buf = Ok ts -> Forall tlv_range ts /\ buf = concat (map tlv_bytes ts))
  /\ (forall buf v rest, read_bytes_null_terminated buf = (v, rest) ->
        ~ In x00 v /\ (buf = v ++ x00 :: rest \/ (buf = v /\ rest = [])))
  /\ (forall buf s rest, read_dsa_signature C buf = Ok (s, rest) ->
        dsa_sig_ok C s /\ buf = write_dsa_signature s ++ rest)
  /\ (forall buf s rest, read_ed448_signature buf = Ok (s, rest) ->
        ed_sig_ok s /\ buf = edsig_R s ++ edsig_s s ++ rest)
  /\ (forall buf k rest, read_public_key C buf = Ok (k, rest) ->
        dsa_pub_ok C k /\ exists pre, buf = pre ++ rest).
Proof. exact readers_exact. Qed.
Print Assumptions C02_readers_consume_what_they_return.

Theorem C02_data_beyond_the_end : forall len rest,
  u32_range len -> N.of_nat (length rest) < len ->
  read_data (be_bytes 4 len ++ rest) = Err IncompleteMessage
  /\ read_mpi (be_bytes 4 len ++ rest) = Err IncompleteMessage.
Proof. exact short_data_refused. Qed.
Print Assumptions C02_data_beyond_the_end.

(** * C03: MPI and public key encodings are canonical *)

Theorem C03_mpi_canonical :
  (forall a b r1 r2, mpi_range a -> mpi_range b -> write_mpi a ++ r1 = write_mpi b ++ r2 -> a = b /\ r1 = r2)
  /\ (forall v, v <> 0 -> exists b l, write_mpi v = be_bytes 4 (N.of_nat (S (length l))) ++ b :: l
        /\ b <> x00 /\ be_val (b :: l) = v)
  /\ write_mpi 0 = [x00; x00; x00; x00].
Proof. exact mpi_canonical. Qed.
Print Assumptions C03_mpi_canonical.

Theorem C03_public_key_canonical : forall a b r1 r2,
  Forall mpi_range [dsa_p a; dsa_q a; dsa_g a; dsa_y a] ->
  Forall mpi_range [dsa_p b; dsa_q b; dsa_g b; dsa_y b] ->
  write_public_key a ++ r1 = write_public_key b ++ r2 -> a = b /\ r1 = r2.
Proof. exact write_public_key_inj. Qed.
Print Assumptions C03_public_key_canonical.

(* Equal fingerprints of different keys are collisions of SHA-1. *)
Theorem C03_fingerprint_collision : forall C a b,
  Forall mpi_range [dsa_p a; dsa_q a; dsa_g a; dsa_y a] ->
  Forall mpi_range [dsa_p b; dsa_q b; dsa_g b; dsa_y b] ->
  otr3_fingerprint C a = otr3_fingerprint C b -> a <> b ->
  exists x y, x <> y /\ sha1 C x = sha1 C y.
Proof. exact fingerprint_collision. Qed.
Print Assumptions C03_fingerprint_collision.

Example C03_ex : write_mpi 255 <> write_mpi 256 /\ mpi_range 255 /\ mpi_range 256.
Proof. repeat apply conj; vm_compute; congruence. Qed.

(** * C04: every encoded OTR message parses back to itself *)

Theorem C04_encoded_message_round_trip : forall C m,
  wire_ok C m ->
  exists text, serialize_message (MsgEncoded m) = Ok text /\ parse C text = Ok (MsgEncoded m).
Proof. exact encoded_round_trip. Qed.
Print Assumptions C04_encoded_message_round_trip.

(* What was accepted from the network and can be written again reads back the same. *)
Theorem C04_accepted_message_stable : forall C data m,
  (0 < c_ed_p C)%Z -> Z.odd (c_ed_p C) = true -> (0 < c_ed_q C <= 2 ^ 456)%Z ->
  parse C data = Ok (MsgEncoded m) -> rewritable (em_message m) ->
  wire_ok C m
  /\ exists text, serialize_message (MsgEncoded m) = Ok text /\ parse C text = Ok (MsgEncoded m).
Proof. exact accepted_stable. Qed.
Print Assumptions C04_accepted_message_stable.

Definition ex_data3 : encoded_message :=
  mkEncoded V3 256 4096 (MData (mkData3 true 2 1 77 (be_bytes 8 5) [x01; x02; x03] (repeat xaa 20) [])).
Example C04_ex_data3 : wire_ok toy ex_data3.
Proof. repeat split; try (right; cbn; lia); try (vm_compute; reflexivity); cbn; lia. Qed.
Definition ex_data4 : encoded_message :=
  mkEncoded V4 256 4096 (MData4 (mkData4 false 0 3 1 (c_ed_g toy) (Some 4) [x01; x02] (repeat xbb 64) [])).
Example C04_ex_data4 : wire_ok toy ex_data4.
Proof. repeat split; try (right; cbn; lia); try (vm_compute; reflexivity); cbn; try lia. Qed.
Example C04_ex_authi : wire_ok toy (mkEncoded V4 256 0 (MAuthI (mkAuthI (mkRing 1 2 3 4 5 52)))).
Proof. split; [right; cbn; lia|]. split; [left; reflexivity|]. exact C01_ex_ring. Qed.

(** * C05: message classification *)

(* Every byte string is classified or rejected, or is one of three shapes that crash: an encoded
   Auth-R or Auth-I message with an all-zero scalar, a query without versions, a bare tag prefix. *)
Theorem C05_classification_crashes : forall C data,
  parse C data = Panic ->
  (looks_encoded data
     /\ exists buf t tags pre rest, data = OTR_ENCODED_PREFIX ++ buf ++ OTR_ENCODED_SUFFIX
        /\ (t = OTR_AUTHR_TYPE_CODE \/ t = OTR_AUTHI_TYPE_CODE) /\ length tags = 8%nat
        /\ b64_decode buf = Some ([x00; x04; t] ++ tags ++ pre ++ repeat x00 57 ++ rest))
  \/ bare_query data \/ bare_tag data.
Proof. exact parse_crash_shapes. Qed.
Print Assumptions C05_classification_crashes.

Theorem C05_never_crashes_refuted : forall C,
  (exists data, parse C data = Panic /\ ~ looks_encoded data)
  /\ parse C [x3f; x4f; x54; x52; x3f] = Panic                         (* ?OTR? *)
  /\ parse C ([x3f; x4f; x54; x52; x3f; x76; x32]) = Panic             (* ?OTR?v2 *)
  /\ parse C (WHITESPACE_PREFIX ++ [x68; x69]) = Panic                 (* the tag prefix, then "hi" *)
  /\ (exists buf, parse C (OTR_ENCODED_PREFIX ++ b64_encode buf ++ OTR_ENCODED_SUFFIX) = Panic).
Proof. exact parse_can_crash. Qed.
Print Assumptions C05_never_crashes_refuted.

Theorem C05_plaintext_unchanged : forall C data,
  ~ looks_encoded data -> ~ looks_error data -> ~ has_query data -> ~ has_tag data ->
  parse C data = Ok (MsgPlaintext data).
Proof. exact parse_plaintext. Qed.
Print Assumptions C05_plaintext_unchanged.

Theorem C05_plaintext_only_if_unmarked : forall C data text,
  parse C data = Ok (MsgPlaintext text) ->
  text = data /\ ~ looks_encoded data /\ ~ looks_error data /\ ~ has_query data /\ ~ has_tag data.
Proof. exact parse_plaintext_inv. Qed.
Print Assumptions C05_plaintext_only_if_unmarked.

Theorem C05_error_round_trip : forall C e,
  serialize_message (MsgError e) = Ok (OTR_ERROR_PREFIX ++ e)
  /\ parse C (OTR_ERROR_PREFIX ++ e) = Ok (MsgError e).
Proof. exact error_round_trip. Qed.
Print Assumptions C05_error_round_trip.

Example C05_ex : parse toy [x68; x69; x20; x3f; x4f; x54] = Ok (MsgPlaintext [x68; x69; x20; x3f; x4f; x54]).
Proof. vm_compute. reflexivity. Qed.

(** * C06: queries *)

Theorem C06_query_round_trip : forall C vs, supported vs -> vs <> [] ->
  exists text vs', serialize_message (MsgQuery vs) = Ok text /\ parse C text = Ok (MsgQuery vs')
    /\ NoDup vs' /\ (forall v, In v vs' <-> In v vs).
Proof. exact query_round_trip_set. Qed.
Print Assumptions C06_query_round_trip.

(* The versions reported are those named in the first query of the text, and nothing else. *)
Theorem C06_query_reports_named_versions : forall C data vs,
  parse C data = Ok (MsgQuery vs) ->
  exists pre suf g, data = pre ++ suf /\ query_at suf (Some g)
    /\ vs = named_versions g
    /\ (In V3 vs <-> In x33 g) /\ (In V4 vs <-> In x34 g) /\ supported vs
    /\ (forall pre1 suf1 g1, data = pre1 ++ suf1 -> query_at suf1 g1 -> (length pre <= length pre1)%nat).
Proof. exact query_reports. Qed.
Print Assumptions C06_query_reports_named_versions.

Example C06_ex : supported [V4; V3; V4]
  /\ parse toy [x3f; x4f; x54; x52; x76; x32; x33; x3f] = Ok (MsgQuery [V3]).
Proof. split; [repeat (apply Forall_cons || apply Forall_nil); auto|vm_compute; reflexivity]. Qed.

(** * C07: whitespace tags *)

(* The text is restored.  The versions reported are only the highest one that was tagged. *)
Theorem C07_tagged_round_trip_partial : forall C vs text,
  supported vs -> vs <> [] -> ~ has_query text -> ~ has_tag text -> ~ group_at text ->
  exists s, serialize_message (MsgTagged vs text) = Ok s
    /\ parse C s = Ok (MsgTagged [highest vs] text).
Proof. exact tagged_parse. Qed.
Print Assumptions C07_tagged_round_trip_partial.

(* For a single version this is the full property. *)
Theorem C07_single_version_round_trip : forall C v text,
  (v = V3 \/ v = V4) -> ~ has_query text -> ~ has_tag text -> ~ group_at text ->
  exists s, serialize_message (MsgTagged [v] text) = Ok s /\ parse C s = Ok (MsgTagged [v] text).
Proof. exact tagged_single. Qed.
Print Assumptions C07_single_version_round_trip.

(* Two versions: one is lost.  Text that starts with eight blanks: they are swallowed. *)
Theorem C07_tagged_round_trip_refuted : forall C,
  (exists text s, serialize_message (MsgTagged [V3; V4] text) = Ok s /\ parse C s = Ok (MsgTagged [V4] text)
     /\ ~ has_query text /\ ~ has_tag text /\ ~ group_at text)
  /\ (exists text s, serialize_message (MsgTagged [V4] text) = Ok s /\ parse C s = Ok (MsgTagged [] [x68; x69])
     /\ text <> [x68; x69]).
Proof. exact tagged_refuted. Qed.
Print Assumptions C07_tagged_round_trip_refuted.

(* Whatever is read as tagged contains a tag, and the versions are those of the tag's last group. *)
Theorem C07_tagged_sound : forall C data vs text,
  parse C data = Ok (MsgTagged vs text) ->
  ~ has_query data
  /\ exists pre gs g after, data = pre ++ WHITESPACE_PREFIX ++ concat (gs ++ [g]) ++ after
       /\ Forall blank_group (gs ++ [g]) /\ ~ group_at after /\ vs = tag_means g.
Proof. exact parse_tagged_inv. Qed.
Print Assumptions C07_tagged_sound.

Example C07_ex : ~ has_query [x68; x69] /\ ~ has_tag [x68; x69] /\ ~ group_at [x68; x69].
Proof. exact hi_unmarked. Qed.

(** * C08: the text armour *)

Theorem C08_base64_lossless :
  (forall data, b64_decode (b64_encode data) = Some data)
  /\ (forall data, Forall b64_char (b64_encode data))
  /\ (forall a b, b64_encode a = b64_encode b -> a = b)
  /\ (forall data, length (b64_encode data) = (4 * ((length data + 2) / 3))%nat).
Proof. exact base64_lossless. Qed.
Print Assumptions C08_base64_lossless.

Example C08_ex : b64_encode [x01; x02; x03; xff] = [x41; x51; x49; x44; x2f; x77; x3d; x3d].
Proof. vm_compute. reflexivity. Qed.

(** * C33: client profiles *)

Theorem C33_profile_round_trip : forall C p rest,
  payload_wire_ok C p -> read_payload C (write_payload p ++ rest) = Ok (p, rest).
Proof. exact read_payload_write. Qed.
Print Assumptions C33_profile_round_trip.

Theorem C33_profile_accepted_iff : forall C p cp,
  payload_validate C p = Ok cp <-> payload_accepted C p cp.
Proof. exact payload_validate_iff. Qed.
Print Assumptions C33_profile_accepted_iff.

Theorem C33_decoded_profile_is_valid : forall C buf p rest,
  (0 < c_ed_p C)%Z -> Z.odd (c_ed_p C) = true ->
  read_payload C buf = Ok (p, rest) ->
  payload_wire_ok C p /\ exists cp, payload_accepted C p cp.
Proof. exact decoded_profile_valid. Qed.
Print Assumptions C33_decoded_profile_is_valid.

(* Signing a profile publishes exactly that profile. *)
Theorem C33_signed_profile_is_the_profile : forall C p identity legacy nonce payload,
  profile_sign C p identity legacy nonce = Ok payload -> payload_accepted C payload p.
Proof. exact signed_profile. Qed.
Print Assumptions C33_signed_profile_is_the_profile.

Example C33_ex : exists payload,
  profile_sign toy ex_profile ex_identity (Some (toy_dsa 5)) [] = Ok payload
  /\ payload_wire_ok toy payload.
Proof. exact ex_profile_signs. Qed.
