(* The cryptographic layer of the code base.

   Hash functions, ciphers, and the checks done by the `dsa` crate are abstract operations collected
   in the record [Crypto]; the record has no laws, so every theorem about the model holds for every
   choice of them, and a law that is needed appears as a hypothesis of the theorem.  The number
   theoretic code (modular exponentiation, Edwards curve arithmetic, EdDSA and ring signatures) is
   modelled function by function; only the group parameters are fields of [Crypto] so that the same
   definitions run on the real parameters (RealParams.v) and on small ones (ToyCrypto.v). *)
From Verif Require Import Base.
Local Open Scope N_scope.

(* src/crypto.rs:1543-1547 `ed448::Point`: affine coordinates, derived equality. *)
Record point : Type := mkPoint { px : Z; py : Z }.
Definition point_eqb (a b : point) : bool := (px a =? px b)%Z && (py a =? py b)%Z.

(* src/crypto.rs:437-438 `dsa::PublicKey`: the four components. *)
Record dsa_pub : Type := mkDsaPub { dsa_p : N; dsa_q : N; dsa_g : N; dsa_y : N }.
(* src/crypto.rs:402-405 `dsa::Keypair`: private exponent and public key. *)
Record dsa_keypair : Type := mkDsaKeypair { dsa_x : N; dsa_pk : dsa_pub }.
(* src/crypto.rs:502-503 `dsa::Signature`. *)
Record dsa_sig : Type := mkDsaSig { sig_r : N; sig_s : N }.

Record Crypto : Type := mkCrypto {
  (* src/crypto.rs:538-608: sha1, sha256 and their HMACs (ring) *)
  c_sha1 : bytes -> bytes;
  c_sha256 : bytes -> bytes;
  c_hmac_sha1 : bytes -> bytes -> bytes;
  c_hmac_sha256 : bytes -> bytes -> bytes;
  (* src/crypto.rs:1139-1154: SHAKE-256, requested output length first *)
  c_shake256 : nat -> bytes -> bytes;
  (* src/crypto.rs:325-379: AES-128-CTR keystream for (key, initial counter block) *)
  c_aes_ctr : bytes -> bytes -> nat -> bytes;
  (* src/crypto.rs:1113-1137: ChaCha20 keystream for the key (zero nonce) *)
  c_chacha20 : bytes -> nat -> bytes;
  (* src/crypto.rs:456-465: `Components::from_components`, `VerifyingKey::from_components` accept *)
  c_dsa_components_ok : dsa_pub -> bool;
  (* src/crypto.rs:521-529: `dsa::Signature::from_components` accepts *)
  c_dsa_sig_ok : dsa_sig -> bool;
  (* src/crypto.rs:431-434: `sign_prehash`; the second argument is the random nonce *)
  c_dsa_sign : dsa_keypair -> bytes -> bytes -> dsa_sig;
  (* src/crypto.rs:474-478: `verify_prehash` *)
  c_dsa_verify : dsa_pub -> bytes -> dsa_sig -> bool;
  (* src/crypto.rs:27-54: 1536-bit group *)
  c_dh_p : N;
  c_dh_g : N;
  (* src/crypto.rs:1806-1879: 3072-bit group *)
  c_dh3_p : N;
  c_dh3_q : N;
  c_dh3_g : N;
  (* src/crypto.rs:1178-1206: Ed448 modulus, order, curve constant and base point *)
  c_ed_p : Z;
  c_ed_q : Z;
  c_ed_d : Z;
  c_ed_g : point
}.

(* Exactly n bytes of the given string (fixed-size Rust arrays have their length by type). *)
Definition fix_len (n : nat) (l : bytes) : bytes := firstn n (l ++ repeat x00 n).

(* Byte-wise XOR with a keystream of the same length. *)
Definition byte_xor (a b : byte) : byte := n2b (N.lxor (b2n a) (b2n b)).
Fixpoint xor_bytes (a ks : bytes) : bytes :=
  match a, ks with
  | x :: a', k :: ks' => byte_xor x k :: xor_bytes a' ks'
  | _, _ => []
  end.

(* Binary modular exponentiation (num-bigint `BigUint::modpow`). *)
Fixpoint powmod_pos (b : N) (e : positive) (m : N) : N :=
  match e with
  | xH => b mod m
  | xO e' => let r := powmod_pos b e' m in (r * r) mod m
  | xI e' => let r := powmod_pos b e' m in ((r * r) mod m * b) mod m
  end.
Definition modpow (b e m : N) : N :=
  match e with 0 => 1 mod m | Npos p => powmod_pos b p m end.

(* src/crypto.rs:319-321 / num-bigint `mod_inverse`: extended Euclid.  Invariant of the loop: the
   pair (r, s) satisfies r = s * a (mod m).  The code unwraps the Option; [None] is "not invertible". *)
Fixpoint egcd_loop (fuel : nat) (r0 s0 r1 s1 : Z) : option (Z * Z) :=
  match fuel with
  | O => None
  | S f =>
      if (r1 =? 0)%Z then Some (r0, s0)
      else egcd_loop f r1 s1 (r0 mod r1)%Z (s0 - (r0 / r1) * s1)%Z
  end.
Definition mod_inverse (a m : Z) : option Z :=
  let a' := (a mod m)%Z in
  match egcd_loop (2 * Z.to_nat (Z.log2_up (m + 1)) + 4) m 0 a' 1 with
  | Some (g, s) => if (g =? 1)%Z then Some (s mod m)%Z else None
  | None => None
  end.

(* src/crypto.rs:2043-2048 `constant::compare`: equal, and neither string all-zero. *)
Definition ct_compare (a b : bytes) : bool :=
  any_nonzero a && any_nonzero b && bytes_eqb a b.

(* src/crypto.rs:1951-1956 `constant::compare_scalars`: the assertion compares the sign component, so
   a zero scalar against a non-zero one panics.  (Scalars in the program are never negative.) *)
Definition compare_scalars (s1 s2 : Z) : res bool :=
  if Bool.eqb (s1 =? 0)%Z (s2 =? 0)%Z
  then Ok (ct_compare (biguint_to_bytes_le (Z.to_N s1)) (biguint_to_bytes_le (Z.to_N s2)))
  else Panic.

Definition of_bool (b : bool) : res unit := if b then Ok tt else Err CryptographicViolation.

Section WithCrypto.
Context (C : Crypto).

(** ** Hashes and ciphers with their fixed output lengths *)

(* src/crypto.rs:541-547 *)
Definition sha1 (d : bytes) : bytes := fix_len 20 (c_sha1 C d).
(* src/crypto.rs:549-556 *)
Definition hmac_sha1 (k d : bytes) : bytes := fix_len 20 (c_hmac_sha1 C k d).
(* src/crypto.rs:581-587 *)
Definition sha256 (d : bytes) : bytes := fix_len 32 (c_sha256 C d).
(* src/crypto.rs:590-597 *)
Definition hmac_sha256 (k d : bytes) : bytes := fix_len 32 (c_hmac_sha256 C k d).
(* src/crypto.rs:600-607 *)
Definition hmac160 (k d : bytes) : bytes := firstn 20 (hmac_sha256 k d).
(* src/crypto.rs:1146-1153 *)
Definition shake256 (n : nat) (d : bytes) : bytes := fix_len n (c_shake256 C n d).

(* src/crypto.rs:356-371 `aes128::Key::{encrypt,decrypt,crypt}`: XOR with the CTR keystream. *)
Definition aes_crypt (key nonce data : bytes) : bytes :=
  xor_bytes data (fix_len (length data) (c_aes_ctr C key nonce (length data))).
(* src/crypto.rs:1120-1136 `chacha20::{encrypt,decrypt,crypt}` *)
Definition chacha_crypt (key data : bytes) : bytes :=
  xor_bytes data (fix_len (length data) (c_chacha20 C key (length data))).

(** ** OTRv4 KDF *)

(* src/crypto.rs:652 PREFIX = "OTRv4" *)
Definition KDF_PREFIX : bytes := [x4f; x54; x52; x76; x34].
(* src/crypto.rs:1094-1110 `kdf`, `kdf2`; 1079-1091 `hwc`, `hwc2`, `hcmac` are the same functions *)
Definition kdf (n : nat) (usage : byte) (data : bytes) : bytes :=
  shake256 n (KDF_PREFIX ++ usage :: data).
Definition kdf2 (n : nat) (usage : byte) (d1 d2 : bytes) : bytes :=
  shake256 n (KDF_PREFIX ++ usage :: d1 ++ d2).
Definition hwc := kdf.
Definition hwc2 := kdf2.
Definition hcmac := kdf.

(* src/crypto.rs:624-650 usage constants *)
Definition USAGE_FINGERPRINT : byte := x00.
Definition USAGE_THIRD_BRACE_KEY : byte := x01.
Definition USAGE_BRACE_KEY : byte := x02.
Definition USAGE_SHARED_SECRET : byte := x03.
Definition USAGE_SSID : byte := x04.
Definition USAGE_AUTH_R_BOB_CLIENT_PROFILE : byte := x05.
Definition USAGE_AUTH_R_ALICE_CLIENT_PROFILE : byte := x06.
Definition USAGE_AUTH_R_PHI : byte := x07.
Definition USAGE_AUTH_I_BOB_CLIENT_PROFILE : byte := x08.
Definition USAGE_AUTH_I_ALICE_CLIENT_PROFILE : byte := x09.
Definition USAGE_AUTH_I_PHI : byte := x0a.
Definition USAGE_FIRST_ROOT_KEY : byte := x0b.
Definition USAGE_ROOT_KEY : byte := x12.
Definition USAGE_CHAIN_KEY : byte := x13.
Definition USAGE_NEXT_CHAIN_KEY : byte := x14.
Definition USAGE_MESSAGE_KEY : byte := x15.
Definition USAGE_MAC_KEY : byte := x16.
Definition USAGE_EXTRA_SYMMETRIC_KEY : byte := x17.
Definition USAGE_AUTHENTICATOR : byte := x18.
Definition USAGE_SMP_SECRET : byte := x19.
Definition USAGE_AUTH : byte := x1a.

(** ** 1536-bit Diffie-Hellman *)

(* src/crypto.rs:53-54 *)
Definition dh_q : N := (c_dh_p C - 1) / 2.
(* src/crypto.rs:102-106 `dh::Keypair` *)
Record dh_keypair : Type := mkDh { dh_private : N; dh_public : N }.
(* src/crypto.rs:141-144 `new_custom`, 135-137 `new` *)
Definition dh_new_custom (g private : N) : dh_keypair := mkDh private (modpow g private (c_dh_p C)).
Definition dh_new (private : N) : dh_keypair := dh_new_custom (c_dh_g C) private.
(* src/crypto.rs:121-131 `generate`: the argument is the 192-byte random number; zero panics. *)
Definition dh_generate (random : N) : res dh_keypair :=
  if random =? 0 then Panic else Ok (dh_new random).
(* src/crypto.rs:154-156 *)
Definition dh_shared (k : dh_keypair) (public : N) : N := modpow public (dh_private k) (c_dh_p C).
(* src/crypto.rs:78-86; MODULUS_MINUS_TWO at 51 *)
Definition dh_verify_public_key (v : N) : bool := (c_dh_g C <=? v) && (v <=? c_dh_p C - 2).
(* src/crypto.rs:92-100 *)
Definition dh_verify_exponent (v : N) : bool := (1 <=? v) && (v <? dh_q).

(** ** 3072-bit Diffie-Hellman *)

(* src/crypto.rs:1886-1893 *)
Definition dh3_verify (v : N) : bool :=
  negb ((v <? c_dh3_g C) || (c_dh3_p C - c_dh3_g C <? v)
        || negb (modpow v (c_dh3_q C) (c_dh3_p C) =? 1)).
(* src/crypto.rs:1895-1910: `generate` with its 80-byte random number *)
Record dh3_keypair : Type := mkDh3 { dh3_private : N; dh3_public : N }.
Definition dh3_generate (random : N) : dh3_keypair :=
  mkDh3 random (modpow (c_dh3_g C) random (c_dh3_p C)).
(* src/crypto.rs:1918-1920 *)
Definition dh3_shared (k : dh3_keypair) (public : N) : N := modpow public (dh3_private k) (c_dh3_p C).

(** ** Ed448 *)

(* src/crypto.rs:1190-1193 `I`, 1720-1722 `is_identity` *)
Definition pt_id : point := mkPoint 0 1.
Definition is_identity (a : point) : bool := (px a =? 0)%Z && (py a =? 1)%Z.

(* The inverse that `add0` unwraps.  On the curve it always exists (EdGroup.v); the value 0 here
   stands for the panic that cannot happen there. *)
Definition inv_or_zero (a : Z) : Z :=
  match mod_inverse a (c_ed_p C) with Some i => i | None => 0%Z end.

(* src/crypto.rs:1698-1717 `add0` *)
Definition pt_add (a b : point) : point :=
  if is_identity a then b
  else if is_identity b then a
  else
    let t := (c_ed_d C * px a * px b * py a * py b)%Z in
    mkPoint (((px a * py b + py a * px b) * inv_or_zero (1 + t)) mod c_ed_p C)%Z
            (((py a * py b - px a * px b) * inv_or_zero (1 - t)) mod c_ed_p C)%Z.

(* src/crypto.rs:1682-1695 `mul0`: double-and-add from the least significant bit of |scalar|.
   The doubling after the last bit has no effect on the result and is left out. *)
Fixpoint pt_mul_loop (acc temp : point) (e : positive) : point :=
  match e with
  | xH => pt_add acc temp
  | xO e' => pt_mul_loop acc (pt_add temp temp) e'
  | xI e' => pt_mul_loop (pt_add acc temp) (pt_add temp temp) e'
  end.
Definition pt_mul (a : point) (s : Z) : point :=
  match Z.abs_N s with
  | 0 => pt_id
  | Npos e => pt_mul_loop pt_id a e
  end.

(* src/crypto.rs:1606-1615 `neg` *)
Definition pt_neg (a : point) : point := mkPoint (c_ed_p C - px a)%Z (py a).

(* src/crypto.rs:1288-1299 `verify` *)
Definition pt_verify (a : point) : bool :=
  negb (is_identity a || (c_ed_p C <=? px a)%Z || (c_ed_p C <=? py a)%Z
        || negb (is_identity (pt_mul a (c_ed_q C)))).

(* src/crypto.rs:1668-1679 `encode`: 57 bytes, y little-endian, the parity of x in the top bit.
   (The assertion that byte 56 is zero and the length check of to_bytes_le_fixed always hold for
   coordinates below the 448-bit modulus.) *)
Definition pt_encode (a : point) : bytes :=
  le_bytes 56 (Z.to_N (py a)) ++ [if Z.odd (px a) then x80 else x00].

(* src/crypto.rs:1626-1661 `decode` of a 57-byte array *)
Definition pt_decode (enc : bytes) : option point :=
  let x_bit := N.testbit (b2n (nth 56 enc x00)) 7 in
  let p := c_ed_p C in
  let y := Z.of_N (le_val (firstn 56 enc)) in
  if (p <=? y)%Z then None
  else
    let num := (y * y - 1)%Z in
    let denom := (y * y * c_ed_d C - 1)%Z in
    let w := (num * num * num * num * num * denom * denom * denom)%Z in
    let pw := Z.of_N (modpow (Z.to_N (w mod p)) (Z.to_N ((p - 3) / 4)) (Z.to_N p)) in
    let x := ((num * num * num * denom * pw) mod p)%Z in
    if negb ((num mod p =? (x * x * denom) mod p)%Z) then None
    else if (x =? 0)%Z && x_bit then None
    else if Bool.eqb (Z.even x) (negb x_bit) then Some (mkPoint x y)
    else Some (mkPoint (p - x) y).

(* src/crypto.rs:1786-1792 `prune`; panics below 57 bytes or when the first 57 bytes are zero *)
Definition set_nth (n : nat) (v : byte) (l : bytes) : bytes := firstn n l ++ v :: skipn (S n) l.
Definition prune (v : bytes) : res bytes :=
  if Nat.ltb (length v) 57 then Panic
  else if all_zero (firstn 57 v) then Panic
  else Ok (set_nth 56 x00
            (set_nth 55 (n2b (N.lor (b2n (nth 55 v x00)) 128))
              (set_nth 0 (n2b (N.land (b2n (nth 0 v x00)) 252)) v))).

(* src/crypto.rs:1325-1328 `decode_scalar`; panics on the all-zero array *)
Definition decode_scalar (enc : bytes) : res Z :=
  if all_zero enc then Panic else Ok (Z.of_N (le_val enc) mod c_ed_q C)%Z.

(* src/crypto.rs:1316-1318 `hash_to_scalar` *)
Definition hash_to_scalar (purpose : byte) (data : bytes) : res Z :=
  decode_scalar (hwc 57 purpose data).

(* src/crypto.rs:1770-1778 `random_in_Zq`, the argument is the 57 random bytes *)
Definition random_in_Zq (rnd : bytes) : res Z :=
  let h := shake256 57 rnd in
  if all_zero h then Panic
  else let* h' := prune h in decode_scalar h'.

(* src/crypto.rs:416-421 of encoding.rs / utils.rs:139-145 `to_bytes_le_fixed::<57>`: panics when the
   magnitude does not fit *)
Definition scalar_bytes (s : Z) : bytes := le_bytes 57 (Z.abs_N s).

(* src/crypto.rs:1331-1356 `ECDHKeyPair` *)
Record ecdh_keypair : Type := mkEcdh { ec_private : Z; ec_public : point }.
Definition ecdh_of_secret (s : Z) : ecdh_keypair := mkEcdh s (pt_mul (c_ed_g C) s).
Definition ecdh_generate (rnd : bytes) : res ecdh_keypair :=
  let* r := random_in_Zq rnd in
  let* buffer := prune (shake256 114 (biguint_to_bytes_le (Z.abs_N r))) in
  Ok (ecdh_of_secret (Z.of_N (le_val buffer))).
Definition ecdh_shared (k : ecdh_keypair) (other : point) : point := pt_mul other (ec_private k).

(* src/crypto.rs:1231-1249 `EdDSAKeyPair` *)
Record eddsa_keypair : Type := mkEddsa { ed_symmetric : bytes; ed_secret : Z; ed_public : point }.
Definition eddsa_of_symmetric (sym : bytes) : res eddsa_keypair :=
  let* src := prune (firstn 57 (shake256 114 sym)) in
  let s := Z.of_N (le_val src) in
  Ok (mkEddsa sym s (pt_mul (c_ed_g C) s)).

(* src/crypto.rs:1749-1760 `dom4` with the empty context: "SigEd448" 0 0 *)
Definition DOM4 : bytes := [x53; x69; x67; x45; x64; x34; x34; x38; x00; x00].

(* src/crypto.rs:1725-1726 `ed448::Signature`: two 57-byte arrays *)
Record ed_sig : Type := mkEdSig { edsig_R : bytes; edsig_s : bytes }.

(* src/crypto.rs:1254-1281 `EdDSAKeyPair::sign` *)
Definition eddsa_sign (k : eddsa_keypair) (m : bytes) : res ed_sig :=
  let h := shake256 114 (ed_symmetric k) in
  let prefix := skipn 57 h in
  let* secret_bytes := prune (firstn 57 h) in
  let s := Z.of_N (le_val secret_bytes) in
  let encoded_A := pt_encode (pt_mul (c_ed_g C) s) in
  let r := Z.of_N (le_val (shake256 114 (DOM4 ++ prefix ++ m))) in
  let encoded_R := pt_encode (pt_mul (c_ed_g C) r) in
  let kk := Z.of_N (le_val (shake256 114 (DOM4 ++ encoded_R ++ encoded_A ++ m))) in
  Ok (mkEdSig encoded_R (scalar_bytes ((r + kk * s) mod c_ed_q C))).

(* src/crypto.rs:1363-1386 `validate` *)
Definition eddsa_validate (pk : point) (sg : ed_sig) (m : bytes) : res unit :=
  match pt_decode (edsig_R sg) with
  | None => Err CryptographicViolation
  | Some R =>
      let* _ := of_bool (pt_verify R) in
      let s := Z.of_N (le_val (edsig_s sg)) in
      if (s <=? 0)%Z || (c_ed_q C <=? s)%Z then Err CryptographicViolation
      else
        let kk := Z.of_N (le_val (shake256 114 (DOM4 ++ edsig_R sg ++ pt_encode pk ++ m))) in
        of_bool (ct_compare (pt_encode (pt_mul (c_ed_g C) s))
                            (pt_encode (pt_add R (pt_mul pk kk))))
  end.

(* src/crypto.rs:1389-1397 `RingSignature` *)
Record ring_sig : Type := mkRing { rs_c1 : Z; rs_r1 : Z; rs_c2 : Z; rs_r2 : Z; rs_c3 : Z; rs_r3 : Z }.

(* src/crypto.rs:1452-1465, 1506-1519: the hashed string; [m] is written as DATA (4-byte length) *)
Definition ring_hash_input (A1 A2 A3 T1 T2 T3 : point) (m : bytes) : bytes :=
  pt_encode (c_ed_g C) ++ scalar_bytes (c_ed_q C)
    ++ pt_encode A1 ++ pt_encode A2 ++ pt_encode A3
    ++ pt_encode T1 ++ pt_encode T2 ++ pt_encode T3
    ++ be_bytes 4 (N.of_nat (length m)) ++ m.

(* src/crypto.rs:1441-1468 `RingSignature::validate` *)
Definition ring_validate (sg : ring_sig) (A1 A2 A3 : point) (m : bytes) : res unit :=
  let G := c_ed_g C in
  let T1 := pt_add (pt_mul G (rs_r1 sg)) (pt_mul A1 (rs_c1 sg)) in
  let T2 := pt_add (pt_mul G (rs_r2 sg)) (pt_mul A2 (rs_c2 sg)) in
  let T3 := pt_add (pt_mul G (rs_r3 sg)) (pt_mul A3 (rs_c3 sg)) in
  let* c := hash_to_scalar USAGE_AUTH (ring_hash_input A1 A2 A3 T1 T2 T3 m) in
  let* b := compare_scalars c ((rs_c1 sg + rs_c2 sg + rs_c3 sg) mod c_ed_q C)%Z in
  of_bool b.

(* src/crypto.rs:2022-2041 `constant::diff` on encoded points; panics on all-zero encodings *)
Definition same_point (a b : point) : res bool :=
  if all_zero (pt_encode a) || all_zero (pt_encode b) then Panic
  else Ok (bytes_eqb (pt_encode a) (pt_encode b)).

(* The seven scalars drawn at src/crypto.rs:1496-1502. *)
Record ring_rnd : Type := mkRingRnd {
  rr_t : Z; rr_c1 : Z; rr_c2 : Z; rr_c3 : Z; rr_r1 : Z; rr_r2 : Z; rr_r3 : Z }.

Definition b2z (b : bool) : Z := if b then 1%Z else 0%Z.

(* src/crypto.rs:1478-1540 `RingSignature::sign` *)
Definition ring_sign (kp : eddsa_keypair) (A1 A2 A3 : point) (m : bytes) (rnd : ring_rnd)
  : res ring_sig :=
  let G := c_ed_g C in
  let q := c_ed_q C in
  let* _ := of_bool (pt_verify A1) in
  let* _ := of_bool (pt_verify A2) in
  let* _ := of_bool (pt_verify A3) in
  let* e1 := same_point (ed_public kp) A1 in
  let* e2 := same_point (ed_public kp) A2 in
  let* e3 := same_point (ed_public kp) A3 in
  let eq1 := b2z e1 in let eq2 := b2z e2 in let eq3 := b2z e3 in
  if negb (eq1 + eq2 + eq3 =? 1)%Z then Panic
  else
    let t := rr_t rnd in
    let c1 := rr_c1 rnd in let c2 := rr_c2 rnd in let c3 := rr_c3 rnd in
    let r1 := rr_r1 rnd in let r2 := rr_r2 rnd in let r3 := rr_r3 rnd in
    let T1 := pt_add (pt_mul G (eq1 * t)) (pt_add (pt_mul G ((1 - eq1) * r1)) (pt_mul A1 ((1 - eq1) * c1))) in
    let T2 := pt_add (pt_mul G (eq2 * t)) (pt_add (pt_mul G ((1 - eq2) * r2)) (pt_mul A2 ((1 - eq2) * c2))) in
    let T3 := pt_add (pt_mul G (eq3 * t)) (pt_add (pt_mul G ((1 - eq3) * r3)) (pt_mul A3 ((1 - eq3) * c3))) in
    let* c := hash_to_scalar USAGE_AUTH (ring_hash_input A1 A2 A3 T1 T2 T3 m) in
    let c1 := ((1 - eq1) * c1 + eq1 * ((c - c2 - c3) mod q))%Z in
    let r1 := ((1 - eq1) * r1 + eq1 * ((t - (c1 * ed_secret kp) mod q) mod q))%Z in
    let c2 := ((1 - eq2) * c2 + eq2 * ((c - c1 - c3) mod q))%Z in
    let r2 := ((1 - eq2) * r2 + eq2 * ((t - (c2 * ed_secret kp) mod q) mod q))%Z in
    let c3 := ((1 - eq3) * c3 + eq3 * ((c - c1 - c2) mod q))%Z in
    let r3 := ((1 - eq3) * r3 + eq3 * ((t - (c3 * ed_secret kp) mod q) mod q))%Z in
    Ok (mkRing c1 r1 c2 r2 c3 r3).

(** ** DSA *)

(* src/crypto.rs:445-466 `PublicKey::from_components` *)
Definition dsa_from_components (p q g y : N) : res dsa_pub :=
  if negb (N.size q =? 160) then Err CryptographicViolation
  else if c_dsa_components_ok C (mkDsaPub p q g y) then Ok (mkDsaPub p q g y)
  else Err CryptographicViolation.
(* src/crypto.rs:521-529 `Signature::from` *)
Definition dsa_sig_from (r s : N) : res dsa_sig :=
  if c_dsa_sig_ok C (mkDsaSig r s) then Ok (mkDsaSig r s) else Err CryptographicViolation.
(* src/crypto.rs:532-534 `prehash` *)
Definition dsa_prehash (data : bytes) (q : N) : bytes := be_bytes 20 (be_val data mod q).
(* src/crypto.rs:431-434 `Keypair::sign` *)
Definition dsa_sign (k : dsa_keypair) (nonce data : bytes) : dsa_sig :=
  c_dsa_sign C k nonce (dsa_prehash data (dsa_q (dsa_pk k))).
(* src/crypto.rs:472-479 `PublicKey::validate` *)
Definition dsa_validate (pk : dsa_pub) (sg : dsa_sig) (data : bytes) : res unit :=
  of_bool (c_dsa_verify C pk (dsa_prehash data (dsa_q pk)) sg).

(** ** OTRv3 key derivation *)

(* src/crypto.rs:290-300 *)
Definition h1 (b : byte) (secbytes : bytes) : bytes := sha1 (b :: secbytes).
Definition h2 (b : byte) (secbytes : bytes) : bytes := sha256 (b :: secbytes).

(* src/crypto.rs:191-199, 217-229 `AKESecrets::derive` *)
Record ake_secrets : Type := mkAkeSecrets {
  as_ssid : bytes; as_c : bytes; as_cp : bytes;
  as_m1 : bytes; as_m1p : bytes; as_m2 : bytes; as_m2p : bytes }.
Definition ake_derive (secbytes : bytes) : ake_secrets :=
  {| as_ssid := firstn 8 (h2 x00 secbytes);
     as_c := firstn 16 (h2 x01 secbytes);
     as_cp := skipn 16 (h2 x01 secbytes);
     as_m1 := h2 x02 secbytes;
     as_m2 := h2 x03 secbytes;
     as_m1p := h2 x04 secbytes;
     as_m2p := h2 x05 secbytes |}.

(* src/crypto.rs:232-288 `DataSecrets`; derive panics when both public keys are equal *)
Record data_secrets : Type := mkDataSecrets { ds_send : bytes; ds_recv : bytes }.
Definition data_derive (our_key their_key : N) (secbytes : bytes) : res data_secrets :=
  if our_key =? their_key then Panic
  else
    let '(sendbyte, recvbyte) := if their_key <? our_key then (x01, x02) else (x02, x01) in
    Ok {| ds_send := firstn 16 (h1 sendbyte secbytes);
          ds_recv := firstn 16 (h1 recvbyte secbytes) |}.
Definition sender_mac_key (d : data_secrets) : bytes := sha1 (ds_send d).
Definition receiver_mac_key (d : data_secrets) : bytes := sha1 (ds_recv d).

(* src/crypto.rs:1070-1076 `otr4::fingerprint` *)
Definition otr4_fingerprint (identity forging : point) : bytes :=
  hwc2 56 USAGE_FINGERPRINT (pt_encode identity) (pt_encode forging).

End WithCrypto.
