(* The formats of what goes over the network, described by predicates on the bytes: which bytes stand for which value.
   Only the types of the values are taken from the model, none of its functions. *)
From Coq Require Import String.
From Verif Require Import Base Types Crypto Encoding ClientProfile Messages Fragment.
Import ListNotations.
Local Open Scope N_scope.

(* the bytes of a literal text *)
Definition text (s : string) : bytes := list_byte_of_string s.

(** ** Numbers and byte strings *)

(* the value of bytes as a number, most significant byte first, and least significant byte first *)
Fixpoint big_endian (b : bytes) : N :=
  match b with [] => 0 | x :: r => Byte.to_N x * 256 ^ N.of_nat (List.length r) + big_endian r end.
Fixpoint little_endian (b : bytes) : N :=
  match b with [] => 0 | x :: r => Byte.to_N x + 256 * little_endian r end.
(* v in k bytes.  (The numbers in messages are machine integers of that size, so there is nothing to reduce.) *)
Definition INT (k : nat) (v : N) (b : bytes) : Prop := List.length b = k /\ big_endian b = v mod 256 ^ N.of_nat k.
Definition LE (k : nat) (v : N) (b : bytes) : Prop := List.length b = k /\ little_endian b = v mod 256 ^ N.of_nat k.
(* a signed number of 8 bytes *)
Definition SIGNED (v : Z) (b : bytes) : Prop := List.length b = 8%nat /\ Z.of_N (big_endian b) = (v mod 2 ^ 64)%Z.
(* pieces one behind the other *)
Inductive SEQ : list (bytes -> Prop) -> bytes -> Prop :=
| SEQ_nil : SEQ [] []
| SEQ_cons (P : bytes -> Prop) Ps x b : P x -> SEQ Ps b -> SEQ (P :: Ps) (x ++ b).
(* exactly these bytes *)
Definition RAW (x b : bytes) : Prop := b = x.
(* a byte string behind its length *)
Definition DATA (x : bytes) : bytes -> Prop := SEQ [INT 4 (N.of_nat (List.length x)); RAW x].
(* a number without leading zero bytes, behind its length *)
Definition MPI (v : N) (b : bytes) : Prop := exists x, big_endian x = v /\ hd_error x <> Some x00 /\ DATA x b.

(** ** Keys and signatures *)

(* A point is its second coordinate in 56 bytes, and a byte whose top bit is the parity of the first. *)
Definition POINT (p : point) : bytes -> Prop :=
  SEQ [LE 56 (Z.to_N (py p)); RAW [if Z.odd (px p) then x80 else x00]].
Definition SCALAR (s : Z) : bytes -> Prop := LE 57 (Z.abs_N s).
Definition RING_SIG (s : ring_sig) : bytes -> Prop :=
  SEQ [SCALAR (rs_c1 s); SCALAR (rs_r1 s); SCALAR (rs_c2 s); SCALAR (rs_r2 s); SCALAR (rs_c3 s); SCALAR (rs_r3 s)].
Definition DSA_KEY (k : dsa_pub) : bytes -> Prop := SEQ [INT 2 0; MPI (dsa_p k); MPI (dsa_q k); MPI (dsa_g k); MPI (dsa_y k)].
Definition DSA_SIG (s : dsa_sig) : bytes -> Prop := SEQ [INT 20 (sig_r s); INT 20 (sig_s s)].

(** ** Client profiles *)

Definition version_digit (v : version) : bytes := match v with V3 => text "3" | V4 => text "4" | _ => [] end.
Definition FIELD (f : field) : bytes -> Prop :=
  match f with
  | FOwnerTag t => SEQ [INT 2 1; INT 4 t]
  | FIdentityKey p => SEQ [INT 2 2; RAW [x10; x00]; POINT p]
  | FForgingKey p => SEQ [INT 2 3; RAW [x12; x00]; POINT p]
  | FVersions vs => SEQ [INT 2 4; DATA (List.concat (map version_digit vs))]
  | FExpiration t => SEQ [INT 2 5; SIGNED t]
  | FLegacyKey k => SEQ [INT 2 6; DSA_KEY k]
  | FTransitional s => SEQ [INT 2 7; DSA_SIG s]
  end.
Definition PROFILE (p : profile_payload) : bytes -> Prop :=
  SEQ [INT 4 (N.of_nat (List.length (pl_fields p))); SEQ (map FIELD (pl_fields p)); RAW (edsig_R (pl_signature p)); RAW (edsig_s (pl_signature p))].

(** ** Messages *)

Definition FLAGS (ignore_unreadable : bool) : bytes -> Prop := RAW [if ignore_unreadable then x01 else x00].
Definition optional (o : option N) : N := match o with Some v => v | None => 0 end.
(* the type of a message and its contents *)
Definition CONTENT (m : encoded_type) : N * list (bytes -> Prop) :=
  match m with
  | MUnencoded _ => (0, [fun _ => False])
  | MDHCommit m => (0x02, [DATA (dc_gx_encrypted m); DATA (dc_gx_hashed m)])
  | MDHKey m => (0x0a, [MPI (dk_gy m)])
  | MRevealSig m => (0x11, [DATA (rv_key m); DATA (rv_signature_encrypted m); RAW (rv_signature_mac m)])
  | MSignature m => (0x12, [DATA (sg_signature_encrypted m); RAW (sg_signature_mac m)])
  | MData m => (0x03, [FLAGS (d3_ignore_unreadable m); INT 4 (d3_sender_keyid m); INT 4 (d3_receiver_keyid m); MPI (d3_dh_y m);
                       RAW (d3_ctr m); DATA (d3_encrypted m); RAW (d3_authenticator m); DATA (d3_revealed m)])
  | MIdentity m => (0x35, [PROFILE (id_profile m); POINT (id_y m); MPI (id_b m); POINT (id_ecdh0 m); MPI (id_dh0 m)])
  | MAuthR m => (0x36, [PROFILE (ar_profile m); POINT (ar_x m); MPI (ar_a m); RING_SIG (ar_sigma m); POINT (ar_ecdh0 m); MPI (ar_dh0 m)])
  | MAuthI m => (0x37, [RING_SIG (ai_sigma m)])
  | MData4 m => (0x03, [FLAGS (d4_ignore_unreadable m); INT 4 (d4_pn m); INT 4 (d4_i m); INT 4 (d4_j m); POINT (d4_ecdh m);
                        MPI (optional (d4_dh m)); DATA (d4_encrypted m); RAW (d4_authenticator m); DATA (d4_revealed m)])
  end.
Definition version_number (v : version) : N := match v with VNone => 0 | V3 => 3 | V4 => 4 | VUnsupported n => n end.
(* version, type, the instance tags of sender and receiver, contents *)
Definition MESSAGE (v : version) (sender receiver : N) (m : encoded_type) : bytes -> Prop :=
  SEQ (INT 2 (version_number v) :: INT 1 (fst (CONTENT m)) :: INT 4 sender :: INT 4 receiver :: snd (CONTENT m)).

(** ** Text *)

(* Base64: groups of three bytes as four symbols, six bits each *)
Definition alphabet : bytes := text "ABCDEFGHIJKLMNOPQRSTUVWXYZabcdefghijklmnopqrstuvwxyz0123456789+/".
Definition SYMBOL (i : N) (x : byte) : Prop := nth_error alphabet (N.to_nat i) = Some x.
Inductive BASE64 : bytes -> bytes -> Prop :=
| B64_nil : BASE64 [] []
| B64_three a b c rest i j k l w x y z out :
    big_endian [a; b; c] = i * 262144 + j * 4096 + k * 64 + l -> SYMBOL i w -> SYMBOL j x -> SYMBOL k y -> SYMBOL l z ->
    BASE64 rest out -> BASE64 (a :: b :: c :: rest) (w :: x :: y :: z :: out)
| B64_two a b i j k w x y :
    big_endian [a; b] * 4 = i * 4096 + j * 64 + k -> SYMBOL i w -> SYMBOL j x -> SYMBOL k y -> BASE64 [a; b] ([w; x; y] ++ text "=")
| B64_one a i j w x : big_endian [a] * 16 = i * 64 + j -> SYMBOL i w -> SYMBOL j x -> BASE64 [a] ([w; x] ++ text "==").
(* the message as text *)
Definition ENCODED (v : version) (sender receiver : N) (m : encoded_type) (p : bytes) : Prop :=
  exists b t, MESSAGE v sender receiver m b /\ BASE64 b t /\ p = text "?OTR:" ++ t ++ text ".".

(* the last k digits of v, lower case.  (The numbers in fragments have no more.) *)
Definition digits : bytes := text "0123456789abcdef".
Fixpoint DIGITS (base : N) (k : nat) (v : N) (b : bytes) : Prop :=
  match k with
  | O => b = []
  | S k' => exists r q i x, b = r ++ [x] /\ v = q * base + i /\ i < base /\ nth_error digits (N.to_nat i) = Some x /\ DIGITS base k' q r
  end.
(* a piece of a message: "?OTR|" the identifier (OTRv4 only), the tags of sender and receiver, its number, how many there are, the piece *)
Definition FRAGMENT (f : fragment) : bytes -> Prop :=
  SEQ ([RAW (text "?OTR|")] ++
       match fr_version f with V4 => [DIGITS 16 8 (big_endian (fr_identifier f)); RAW (text "|")] | _ => [] end ++
       [DIGITS 16 8 (fr_sender f); RAW (text "|"); DIGITS 16 8 (fr_receiver f); RAW (text ",");
        DIGITS 10 5 (fr_part f); RAW (text ","); DIGITS 10 5 (fr_total f); RAW (text ","); RAW (fr_payload f); RAW (text ",")]).

(* records inside data messages: type, length, value *)
Definition RECORD (t : tlv) : bytes -> Prop := SEQ [INT 2 (tlv_type t); INT 2 (N.of_nat (List.length (tlv_value t))); RAW (tlv_value t)].
