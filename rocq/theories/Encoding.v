(* src/encoding.rs: the OTR wire primitives.  A reader takes the unread buffer and returns the value
   and the rest; after an error the buffer is dropped by every caller, so it is not returned. *)
From Verif Require Import Base Crypto.
Local Open Scope N_scope.

Definition reader (A : Type) : Type := bytes -> res (A * bytes).

(* src/encoding.rs:443-450 *)
Definition CTR_LEN : nat := 8.
Definition MAC_LEN : nat := 20.
Definition MAC4_LEN : nat := 64.
Definition NONCE_LEN : nat := 12.

(* src/encoding.rs:452-454 `TLV` *)
Record tlv : Type := mkTlv { tlv_type : N; tlv_value : bytes }.

(** ** Decoder *)

(* src/encoding.rs:53-61 *)
Definition read_u8 : reader byte := fun buf =>
  match buf with [] => Err IncompleteMessage | b :: rest => Ok (b, rest) end.

(* src/encoding.rs:64-72: `(b0 << 8) + b1` *)
Definition read_u16 : reader N := fun buf =>
  match buf with
  | b0 :: b1 :: rest => Ok (b2n b0 * 256 + b2n b1, rest)
  | _ => Err IncompleteMessage
  end.

(* src/encoding.rs:75-83 *)
Definition read_u16_le : reader N := fun buf =>
  match buf with
  | b0 :: b1 :: rest => Ok (b2n b1 * 256 + b2n b0, rest)
  | _ => Err IncompleteMessage
  end.

(* src/encoding.rs:86-97 *)
Definition read_u32 : reader N := fun buf =>
  match buf with
  | b0 :: b1 :: b2 :: b3 :: rest =>
      Ok (b2n b0 * 16777216 + b2n b1 * 65536 + b2n b2 * 256 + b2n b3, rest)
  | _ => Err IncompleteMessage
  end.

(* src/encoding.rs:257-266 `read::<N>` *)
Definition read_fixed (n : nat) : reader bytes := fun buf => take_bytes n buf.

(* two's complement i64 *)
Definition i64_of_be (l : bytes) : Z :=
  let v := Z.of_N (be_val l) in if (v <? 2 ^ 63)%Z then v else (v - 2 ^ 64)%Z.
Definition i64_to_be (z : Z) : bytes := be_bytes 8 (Z.to_N (z mod 2 ^ 64)).
(* src/encoding.rs:99-102 *)
Definition read_i64 : reader Z := fun buf =>
  let* (v, rest) := read_fixed 8 buf in Ok (i64_of_be v, rest).

(* src/instancetag.rs:5-6, 23-29 `verify` *)
Definition INSTANCE_MIN_VALID : N := 256.
Definition tag_verify (tag : N) : res N :=
  if (0 <? tag) && (tag <? INSTANCE_MIN_VALID) then Err ProtocolViolation else Ok tag.

(* src/encoding.rs:104-107 *)
Definition read_instance_tag : reader N := fun buf =>
  let* (v, rest) := read_u32 buf in
  let* t := tag_verify v in Ok (t, rest).

(* src/encoding.rs:110-119 *)
Definition read_data : reader bytes := fun buf =>
  let* (len, rest) := read_u32 buf in
  if N.of_nat (length rest) <? len then Err IncompleteMessage
  else take_bytes (N.to_nat len) rest.

(* src/encoding.rs:122-135 *)
Definition read_mpi : reader N := fun buf =>
  let* (len, rest) := read_u32 buf in
  if len =? 0 then Ok (0, rest)
  else if N.of_nat (length rest) <? len then Err IncompleteMessage
  else let* (v, rest') := take_bytes (N.to_nat len) rest in Ok (be_val v, rest').

(* src/encoding.rs:138-146.  The loop runs [count] times; every successful round consumes at least
   four bytes, so recursion on the buffer length stops exactly where the next read would fail. *)
Fixpoint read_mpis (fuel : nat) (count : N) (buf : bytes) : res (list N * bytes) :=
  if count =? 0 then Ok ([], buf)
  else match fuel with
       | O => Err IncompleteMessage
       | S f =>
           let* (v, rest) := read_mpi buf in
           let* (vs, rest') := read_mpis f (count - 1) rest in
           Ok (v :: vs, rest')
       end.
Definition read_mpi_sequence : reader (list N) := fun buf =>
  let* (count, rest) := read_u32 buf in read_mpis (length rest) count rest.

(* src/encoding.rs:149-155, 158-164, 246-254 *)
Definition read_ctr : reader bytes := read_fixed CTR_LEN.
Definition read_mac : reader bytes := read_fixed MAC_LEN.
Definition read_mac4 : reader bytes := read_fixed MAC4_LEN.
Definition read_nonce : reader bytes := read_fixed NONCE_LEN.

(* src/encoding.rs:199-209 *)
Definition read_tlv : reader tlv := fun buf =>
  let* (typ, rest) := read_u16 buf in
  let* (len, rest) := read_u16 rest in
  let* (v, rest) := take_bytes (N.to_nat len) rest in
  Ok (mkTlv typ v, rest).

(* src/encoding.rs:189-196: while the buffer is not empty.  Each TLV consumes at least four bytes,
   so the fuel (buffer length) never runs out on a non-empty buffer. *)
Fixpoint read_tlvs_loop (fuel : nat) (buf : bytes) : res (list tlv) :=
  match buf with
  | [] => Ok []
  | _ =>
      match fuel with
      | O => Err IncompleteMessage
      | S f =>
          let* (t, rest) := read_tlv buf in
          let* ts := read_tlvs_loop f rest in Ok (t :: ts)
      end
  end.
Definition read_tlvs (buf : bytes) : res (list tlv) := read_tlvs_loop (length buf) buf.

(* src/encoding.rs:215-227 *)
Fixpoint read_bytes_null_terminated (buf : bytes) : bytes * bytes :=
  match buf with
  | [] => ([], [])
  | b :: rest =>
      if byte_eqb b x00 then ([], rest)
      else let '(v, r) := read_bytes_null_terminated rest in (b :: v, r)
  end.

(* src/encoding.rs:276-282 *)
Definition done (buf : bytes) : res unit :=
  match buf with [] => Ok tt | _ => Err ProtocolViolation end.

(** ** Encoder: each writer is the string it appends *)

(* src/encoding.rs:309-335 (to_be_bytes / to_le_bytes) *)
Definition write_u8 (b : byte) : bytes := [b].
Definition write_u16 (v : N) : bytes := be_bytes 2 v.
Definition write_u16_le (v : N) : bytes := le_bytes 2 v.
Definition write_u32 (v : N) : bytes := be_bytes 4 v.
(* src/encoding.rs:337-341 *)
Definition write_i64 (v : Z) : bytes := i64_to_be v.
(* src/encoding.rs:344-349.  Simplified: the assertion that fails for data of 4 GiB or more is not
   part of the result; theorems about this writer carry the bound as a hypothesis. *)
Definition write_data (v : bytes) : bytes := write_u32 (N.of_nat (length v)) ++ v.
(* src/encoding.rs:362-376 *)
Definition write_mpi (v : N) : bytes :=
  if v =? 0 then write_u32 0
  else let encoded := biguint_to_bytes_be v in write_u32 (N.of_nat (length encoded)) ++ encoded.
(* src/encoding.rs:353-359 *)
Definition write_mpi_sequence (vs : list N) : bytes :=
  write_u32 (N.of_nat (length vs)) ++ concat (map write_mpi vs).
(* src/encoding.rs:397-402: panics when the value does not fit a 16-bit length *)
Definition write_tlv (t : tlv) : res bytes :=
  if N.of_nat (length (tlv_value t)) <? 65536
  then Ok (write_u16 (tlv_type t) ++ write_u16 (N.of_nat (length (tlv_value t))) ++ tlv_value t)
  else Panic.
(* src/encoding.rs:404-408 *)
Definition write_bytes_null_terminated (data : bytes) : bytes := data ++ [x00].
(* src/encoding.rs:388-394 *)
Definition write_public_key (k : dsa_pub) : bytes :=
  write_u16 0 ++ write_mpi (dsa_p k) ++ write_mpi (dsa_q k) ++ write_mpi (dsa_g k) ++ write_mpi (dsa_y k).
(* src/crypto.rs:505-514 `dsa::Signature::encode`; utils.rs:174-185 asserts that the value fits *)
Definition write_dsa_signature (s : dsa_sig) : bytes := be_bytes 20 (sig_r s) ++ be_bytes 20 (sig_s s).
(* src/encoding.rs:410-421 *)
Definition write_ed448_point (p : point) : bytes := pt_encode p.
Definition write_ed448_scalar (s : Z) : bytes := scalar_bytes s.
(* src/crypto.rs:1399-1409 `RingSignature::encode` *)
Definition write_ring_signature (s : ring_sig) : bytes :=
  write_ed448_scalar (rs_c1 s) ++ write_ed448_scalar (rs_r1 s)
  ++ write_ed448_scalar (rs_c2 s) ++ write_ed448_scalar (rs_r2 s)
  ++ write_ed448_scalar (rs_c3 s) ++ write_ed448_scalar (rs_r3 s).
(* src/crypto.rs:1728-1733 `ed448::Signature::encode` *)
Definition write_ed_sig (s : ed_sig) : bytes := edsig_R s ++ edsig_s s.

Section WithCrypto.
Context (C : Crypto).

(* src/encoding.rs:167-180 *)
Definition read_public_key : reader dsa_pub := fun buf =>
  let* (pktype, buf) := read_u16 buf in
  if negb (pktype =? 0) then Err ProtocolViolation
  else
    let* (p, buf) := read_mpi buf in
    let* (q, buf) := read_mpi buf in
    let* (g, buf) := read_mpi buf in
    let* (y, buf) := read_mpi buf in
    let* k := dsa_from_components C p q g y in
    Ok (k, buf).

(* src/encoding.rs:182-187 *)
Definition read_dsa_signature : reader dsa_sig := fun buf =>
  let* (r, buf) := read_fixed 20 buf in
  let* (s, buf) := read_fixed 20 buf in
  let* sg := dsa_sig_from C (be_val r) (be_val s) in
  Ok (sg, buf).

(* src/encoding.rs:229-232, src/crypto.rs:1740-1746 *)
Definition read_ed448_signature : reader ed_sig := fun buf =>
  let* (r, buf) := read_fixed 57 buf in
  let* (s, buf) := read_fixed 57 buf in
  Ok (mkEdSig r s, buf).

(* src/encoding.rs:234-239 *)
Definition read_ed448_point : reader point := fun buf =>
  let* (enc, buf) := read_fixed 57 buf in
  match pt_decode C enc with
  | Some p => Ok (p, buf)
  | None => Err CryptographicViolation
  end.

(* src/encoding.rs:241-244: panics on 57 zero bytes *)
Definition read_ed448_scalar : reader Z := fun buf =>
  let* (enc, buf) := read_fixed 57 buf in
  let* s := decode_scalar C enc in
  Ok (s, buf).

(* src/crypto.rs:1417-1434 `RingSignature::decode` *)
Definition read_ring_signature : reader ring_sig := fun buf =>
  let* (c1, buf) := read_ed448_scalar buf in
  let* (r1, buf) := read_ed448_scalar buf in
  let* (c2, buf) := read_ed448_scalar buf in
  let* (r2, buf) := read_ed448_scalar buf in
  let* (c3, buf) := read_ed448_scalar buf in
  let* (r3, buf) := read_ed448_scalar buf in
  Ok (mkRing c1 r1 c2 r2 c3 r3, buf).

(* src/crypto.rs:303-311 `otr::fingerprint`: the two type bytes are dropped *)
Definition otr3_fingerprint (k : dsa_pub) : bytes := sha1 C (skipn 2 (write_public_key k)).

End WithCrypto.
