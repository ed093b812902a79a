(* Specification vocabulary for the wire format properties (C01-C08, C33): which values a wire type
   can carry, what a query or a whitespace tag looks like, what an acceptable client profile is.
   Nothing here refers to the readers and scanners of the model. *)
From Verif Require Import Base Types Crypto Encoding ClientProfile Messages.
Local Open Scope N_scope.

(** ** Ranges *)

Definition u16_range (v : N) : Prop := v < 65536.
Definition u32_range (v : N) : Prop := v < 4294967296.
Definition i64_range (z : Z) : Prop := (- 2 ^ 63 <= z < 2 ^ 63)%Z.
(* An instance tag on the wire: absent (zero) or at least 0x100. *)
Definition legal_tag (t : N) : Prop := t = 0 \/ 256 <= t < 4294967296.
(* A string whose length can be written in 32 bits. *)
Definition fits32 (l : bytes) : Prop := N.of_nat (length l) < 4294967296.
(* A number fits an MPI when its minimal representation has fewer than 2^32 bytes. *)
Definition mpi_range (v : N) : Prop := N.of_nat (byte_len v) < 4294967296.
Definition keyid_range (k : N) : Prop := 0 < k < 4294967296.
Definition tlv_range (t : tlv) : Prop :=
  tlv_type t < 65536 /\ N.of_nat (length (tlv_value t)) < 65536.
(* type, length, value *)
Definition tlv_bytes (t : tlv) : bytes :=
  be_bytes 2 (tlv_type t) ++ be_bytes 2 (N.of_nat (length (tlv_value t))) ++ tlv_value t.
Definition ed_sig_ok (s : ed_sig) : Prop := length (edsig_R s) = 57%nat /\ length (edsig_s s) = 57%nat.
Definition versions_ok (vs : list version) : Prop :=
  Forall (fun v => v = V3 \/ v = V4) vs /\ N.of_nat (length vs) < 4294967296.
Definition supported (vs : list version) : Prop := Forall (fun v => v = V3 \/ v = V4) vs.

(* No input makes the reader crash. *)
Definition reader_safe {A} (r : reader A) : Prop := forall buf, r buf <> Panic.
(* A reader consumes a prefix: what it leaves is a suffix of what it got. *)
Definition reader_prefix {A} (r : reader A) : Prop :=
  forall buf v rest, r buf = Ok (v, rest) -> exists pre, buf = pre ++ rest.

(** ** Client profile fields, by kind *)

Definition sel_owner (f : field) := match f with FOwnerTag t => [t] | _ => [] end.
Definition sel_identity (f : field) := match f with FIdentityKey p => [p] | _ => [] end.
Definition sel_forging (f : field) := match f with FForgingKey p => [p] | _ => [] end.
Definition sel_versions (f : field) := match f with FVersions vs => [vs] | _ => [] end.
Definition sel_expiration (f : field) := match f with FExpiration t => [t] | _ => [] end.
Definition sel_legacy (f : field) := match f with FLegacyKey k => [k] | _ => [] end.
Definition sel_transitional (f : field) := match f with FTransitional s => [s] | _ => [] end.
(* "exactly one field of this kind, with this content"; "no field of this kind" *)
Definition only {A} (sel : field -> list A) (fs : list field) (x : A) : Prop := flat_map sel fs = [x].
Definition none {A} (sel : field -> list A) (fs : list field) : Prop := flat_map sel fs = [].
Definition without_transitional (fs : list field) : list field :=
  filter (fun f => match f with FTransitional _ => false | _ => true end) fs.

Section WithCrypto.
Context (C : Crypto).

Definition dsa_pub_ok (k : dsa_pub) : Prop :=
  Forall mpi_range [dsa_p k; dsa_q k; dsa_g k; dsa_y k]
  /\ N.size (dsa_q k) = 160 /\ c_dsa_components_ok C k = true.
Definition dsa_sig_ok (s : dsa_sig) : Prop :=
  sig_r s < 2 ^ 160 /\ sig_s s < 2 ^ 160 /\ c_dsa_sig_ok C s = true.
(* The 57 bytes of the point decode to the point (true of every point of the curve). *)
Definition point_wire_ok (p : point) : Prop := pt_decode C (pt_encode p) = Some p.
Definition scalar_range (s : Z) : Prop := (0 < s < c_ed_q C)%Z /\ (s < 2 ^ 456)%Z.
Definition ring_range (s : ring_sig) : Prop :=
  scalar_range (rs_c1 s) /\ scalar_range (rs_r1 s) /\ scalar_range (rs_c2 s)
  /\ scalar_range (rs_r2 s) /\ scalar_range (rs_c3 s) /\ scalar_range (rs_r3 s).

(* The profile [cp] is what the payload [p] says, and the payload is properly signed.  Version fields
   that are present but name no known version are tolerated before the one that counts. *)
Definition payload_accepted (p : profile_payload) (cp : client_profile) : Prop :=
  let fs := pl_fields p in
  only sel_owner fs (cp_owner cp)
  /\ only sel_identity fs (cp_identity cp)
  /\ only sel_forging fs (cp_forging cp)
  /\ only sel_expiration fs (cp_expiration cp)
  /\ cp_versions cp <> []
  /\ (exists k, flat_map sel_versions fs = repeat [] k ++ [cp_versions cp])
  /\ eddsa_validate C (cp_identity cp) (pl_signature p) (write_fields fs) = Ok tt
  /\ match cp_legacy cp with
     | None => none sel_legacy fs /\ none sel_transitional fs /\ ~ In V3 (cp_versions cp)
     | Some k =>
         only sel_legacy fs k
         /\ exists sg, only sel_transitional fs sg
              /\ dsa_validate C k sg (write_fields (without_transitional fs)) = Ok tt
     end.

Definition field_ok (f : field) : Prop :=
  match f with
  | FOwnerTag t => legal_tag t
  | FIdentityKey p | FForgingKey p => point_wire_ok p
  | FVersions vs => versions_ok vs
  | FExpiration t => i64_range t
  | FLegacyKey k => dsa_pub_ok k
  | FTransitional s => dsa_sig_ok s
  end.
Definition payload_wire_ok (p : profile_payload) : Prop :=
  Forall field_ok (pl_fields p) /\ N.of_nat (length (pl_fields p)) < 4294967296
  /\ ed_sig_ok (pl_signature p) /\ exists cp, payload_accepted p cp.

(** ** Encoded messages: the ranges of their fields, and which version has which messages *)

Definition content_ok (v : version) (m : encoded_type) : Prop :=
  match v, m with
  | V3, MDHCommit m => fits32 (dc_gx_encrypted m) /\ fits32 (dc_gx_hashed m)
  | V3, MDHKey m => mpi_range (dk_gy m)
  | V3, MRevealSig m =>
      length (rv_key m) = 16%nat /\ fits32 (rv_signature_encrypted m)
      /\ length (rv_signature_mac m) = MAC_LEN
  | V3, MSignature m => fits32 (sg_signature_encrypted m) /\ length (sg_signature_mac m) = MAC_LEN
  | V3, MData m =>
      keyid_range (d3_sender_keyid m) /\ keyid_range (d3_receiver_keyid m) /\ mpi_range (d3_dh_y m)
      /\ length (d3_ctr m) = CTR_LEN /\ fits32 (d3_encrypted m)
      /\ length (d3_authenticator m) = MAC_LEN /\ fits32 (d3_revealed m)
  | V4, MIdentity m =>
      payload_wire_ok (id_profile m) /\ point_wire_ok (id_y m) /\ mpi_range (id_b m)
      /\ point_wire_ok (id_ecdh0 m) /\ mpi_range (id_dh0 m)
  | V4, MAuthR m =>
      payload_wire_ok (ar_profile m) /\ point_wire_ok (ar_x m) /\ mpi_range (ar_a m)
      /\ ring_range (ar_sigma m) /\ point_wire_ok (ar_ecdh0 m) /\ mpi_range (ar_dh0 m)
  | V4, MAuthI m => ring_range (ai_sigma m)
  | V4, MData4 m =>
      d4_pn m < 4294967296 /\ d4_i m < 4294967296 /\ d4_j m < 4294967296
      /\ point_wire_ok (d4_ecdh m)
      /\ match d4_dh m with Some d => d <> 0 /\ mpi_range d | None => True end
      /\ fits32 (d4_encrypted m) /\ length (d4_authenticator m) = MAC4_LEN /\ fits32 (d4_revealed m)
      /\ (length (d4_revealed m) mod 64 = 0)%nat
  | _, _ => False
  end.
Definition wire_ok (m : encoded_message) : Prop :=
  legal_tag (em_sender m) /\ legal_tag (em_receiver m) /\ content_ok (em_version m) (em_message m).

End WithCrypto.

Definition ring_nonzero (s : ring_sig) : Prop :=
  rs_c1 s <> 0%Z /\ rs_r1 s <> 0%Z /\ rs_c2 s <> 0%Z /\ rs_r2 s <> 0%Z /\ rs_c3 s <> 0%Z /\ rs_r3 s <> 0%Z.
(* What the writer needs of a message that was read: non-zero ring scalars, whole MAC keys in the
   revealed list. *)
Definition rewritable (m : encoded_type) : Prop :=
  match m with
  | MAuthR m => ring_nonzero (ar_sigma m)
  | MAuthI m => ring_nonzero (ai_sigma m)
  | MData4 m => (length (d4_revealed m) mod 64 = 0)%nat
  | _ => True
  end.

(** ** Human readable messages *)

Definition digit_char (b : byte) : Prop := 48 <= b2n b <= 57.
(* A version group is an optional colon, the letter v, and digits. *)
Definition version_group (g : bytes) : Prop :=
  exists colon digits, (colon = [] \/ colon = [x3a]) /\ Forall digit_char digits
    /\ g = colon ++ x76 :: digits.
(* "l begins with a query": ?OTR, an optional ?, an optional version group, a ?. *)
Definition query_at (l : bytes) (g : option bytes) : Prop :=
  exists q rest, (q = [] \/ q = [x3f])
    /\ match g with Some g => version_group g | None => True end
    /\ l = [x3f; x4f; x54; x52] ++ q ++ match g with Some g => g | None => [] end ++ x3f :: rest.
Definition has_query (l : bytes) : Prop := exists pre suf g, l = pre ++ suf /\ query_at suf g.

Definition blank_char (b : byte) : Prop := b = x20 \/ b = x09.
Definition blank_group (g : bytes) : Prop := length g = 8%nat /\ Forall blank_char g.
(* l begins with eight blanks *)
Definition group_at (l : bytes) : Prop := exists g r, blank_group g /\ l = g ++ r.
Definition has_tag (l : bytes) : Prop := exists pre suf, l = pre ++ WHITESPACE_PREFIX ++ suf.

(* "?OTR:" ... "." and "?OTR Error:" ... *)
Definition looks_encoded (l : bytes) : Prop := exists body, l = OTR_ENCODED_PREFIX ++ body ++ OTR_ENCODED_SUFFIX.
Definition looks_error (l : bytes) : Prop := exists e, l = OTR_ERROR_PREFIX ++ e.

(* A query without a version group, where none can be found at that place. *)
Definition bare_query (l : bytes) : Prop :=
  exists pre suf, l = pre ++ suf /\ query_at suf None /\ (forall g, ~ query_at suf (Some g)).
(* A whitespace tag prefix without any group of eight blanks. *)
Definition bare_tag (l : bytes) : Prop :=
  exists pre suf, l = pre ++ WHITESPACE_PREFIX ++ suf /\ ~ group_at suf.

(* The versions named by the characters 3 and 4 of a version group, in order. *)
Fixpoint named_versions (g : bytes) : list version :=
  match g with
  | [] => []
  | b :: r => if byte_eqb b x33 then V3 :: named_versions r
              else if byte_eqb b x34 then V4 :: named_versions r else named_versions r
  end.
(* The version a group of eight blanks stands for. *)
Definition tag_means (g : bytes) : list version :=
  if bytes_eqb g WHITESPACE_TAG_OTRV1 then [VUnsupported 1]
  else if bytes_eqb g WHITESPACE_TAG_OTRV2 then [VUnsupported 2]
  else if bytes_eqb g WHITESPACE_TAG_OTRV3 then [V3]
  else if bytes_eqb g WHITESPACE_TAG_OTRV4 then [V4]
  else [].
Definition highest (vs : list version) : version := if contains_version V4 vs then V4 else V3.
