(* How the keys of data messages follow from the Diffie-Hellman keys that the messages announce, written down with the
   constants of the two protocols and without the functions of the model for keys and ratchets. *)
From Verif Require Import Base Types Crypto Encoding Messages SpecCurve Session SpecSession SpecFollow SpecOrigin.
Local Open Scope N_scope.

Section WithCrypto.
Context (C : Crypto).

(** ** OTRv3 *)

(* a public key that may be accepted: 1 and p - 1, whose powers are known, are not *)
Definition proper3 (y : N) : Prop := c_dh_g C <= y <= c_dh_p C - 2.

(* The key pair of the side that writes with secret key x to the public key y; [up] tells whether the writer has the larger
   public key. *)
Definition secret3 (x y : N) : bytes := write_mpi (modpow y x (c_dh_p C)).
Definition public3 (x : N) : N := modpow (c_dh_g C) x (c_dh_p C).
Definition cipher_key3 (up : bool) (s : bytes) : bytes := firstn 16 (sha1 C ((if up then x01 else x02) :: s)).
Definition auth_key3 (up : bool) (s : bytes) : bytes := sha1 C (cipher_key3 up s).
(* what the authenticator of a data message is about: everything that precedes it *)
Definition head3 (sender receiver : N) (m : data3) : bytes :=
  [x00; x03; x03] ++ be_bytes 4 sender ++ be_bytes 4 receiver ++ [if d3_ignore_unreadable m then x01 else x00]
  ++ be_bytes 4 (d3_sender_keyid m) ++ be_bytes 4 (d3_receiver_keyid m) ++ write_mpi (d3_dh_y m) ++ d3_ctr m ++ write_data (d3_encrypted m).
(* the text and the message m belong together, under the secret s *)
Definition protected3 (up : bool) (s : bytes) (sender receiver : N) (m : data3) (text : bytes) : Prop :=
  d3_encrypted m = aes_crypt C (cipher_key3 up s) (d3_ctr m ++ repeat x00 8) text /\
  d3_authenticator m = hmac_sha1 C (auth_key3 up s) (head3 sender receiver m).

(* X: the own secret keys, Y: the peer's public keys, both by number, from 1.  The messages name the keys by number; each
   announces the sender's next key.  [known g b]: the peer's key number b is the first one, or a message announced it. *)
Definition known (g : list did) (b : N) : Prop :=
  b = 1 \/ exists em m text, In (Reads em text) g /\ em_message em = MData m /\ d3_sender_keyid m + 1 = b.
Definition follows3 (our their : N) (X Y : N -> N) (g : list did) : Prop :=
  (forall m text, In (Sends m text) g -> exists m3, m = MData m3 /\
    let x := X (d3_sender_keyid m3) in let y := Y (d3_receiver_keyid m3) in
    d3_dh_y m3 = public3 (X (d3_sender_keyid m3 + 1)) /\ known g (d3_receiver_keyid m3) /\
    public3 x <> y /\ protected3 (y <? public3 x) (secret3 x y) our their m3 text) /\
  (forall em text, In (Reads em text) g -> exists m3, em_message em = MData m3 /\
    let x := X (d3_receiver_keyid m3) in let y := Y (d3_sender_keyid m3) in
    d3_dh_y m3 = Y (d3_sender_keyid m3 + 1) /\ known g (d3_sender_keyid m3) /\
    public3 x <> y /\ protected3 (public3 x <? y) (secret3 x y) (em_sender em) (em_receiver em) m3 text).

(** ** OTRv4 *)

(* the hash of the protocol: "OTRv4", a usage, the values *)
Definition H4 (n : nat) (usage : byte) (l : list bytes) : bytes := shake256 C n ([x4f; x54; x52; x76; x34; usage] ++ concat l).

(* The keys with which a ratchet is made: own secret keys, the peer's public keys. *)
Record turn : Type := mkTurn { tu_ecdh : Z; tu_dh : N; tu_their_ecdh : point; tu_their_dh : N }.
(* ratchets 0, 1, 4, 7, ... mix in a fresh D-H secret *)
Definition fresh_dh (k : nat) : bool := match k with O => true | S p => Nat.eqb (Nat.modulo p 3) 0 end.
Definition dh_secret (u : turn) : bytes := biguint_to_bytes_be (modpow (tu_their_dh u) (tu_dh u) (c_dh3_p C)).
Definition ecdh_secret (u : turn) : bytes := pt_encode (pt_mul C (tu_their_ecdh u) (tu_ecdh u)).
(* The peer's keys may be accepted: a point of the curve, and a number, both in the group of order q and not neutral. *)
Definition proper4 (u : turn) : Prop :=
  pt_valid C (tu_their_ecdh u) /\ tu_their_ecdh u <> mkPoint 0 1 /\ pt_mul C (tu_their_ecdh u) (c_ed_q C) = mkPoint 0 1 /\
  c_dh3_g C <= tu_their_dh u <= c_dh3_p C - c_dh3_g C /\ modpow (tu_their_dh u) (c_dh3_q C) (c_dh3_p C) = 1.
Section Schedule.
Context (T : nat -> turn) (K : bytes).
Fixpoint brace (k : nat) : bytes :=
  if fresh_dh k then H4 32 x01 [dh_secret (T k)] else match k with O => [] | S p => H4 32 x02 [brace p] end.
Definition mixed (k : nat) : bytes := H4 64 x03 [ecdh_secret (T k); brace k].
Fixpoint root (k : nat) : bytes := match k with O => H4 64 x0b [K] | S p => H4 64 x12 [root p; mixed p] end.
Fixpoint chain (k j : nat) : bytes := match j with O => H4 64 x13 [root k; mixed k] | S j => H4 64 x14 [chain k j] end.
Definition cipher_key4 (k j : nat) : bytes := H4 64 x15 [chain k j].
Definition auth_key4 (k j : nat) : bytes := H4 64 x16 [cipher_key4 k j].
Definition head4 (sender receiver : N) (m : data4) : bytes :=
  [x00; x04; x03] ++ be_bytes 4 sender ++ be_bytes 4 receiver ++ [if d4_ignore_unreadable m then x01 else x00]
  ++ be_bytes 4 (d4_pn m) ++ be_bytes 4 (d4_i m) ++ be_bytes 4 (d4_j m) ++ pt_encode (d4_ecdh m)
  ++ write_mpi (match d4_dh m with Some v => v | None => 0 end) ++ write_data (d4_encrypted m).
Definition protected4 (k : nat) (sender receiver : N) (m : data4) (text : bytes) : Prop :=
  d4_encrypted m = chacha_crypt C (firstn 32 (cipher_key4 k (N.to_nat (d4_j m)))) text /\
  d4_authenticator m = H4 64 x18 [auth_key4 k (N.to_nat (d4_j m)); head4 sender receiver m].

(* The ratchets alternate; the one who sent Auth-R starts with ratchet 0. *)
Definition own_turn (first : bool) (k : nat) : bool := Bool.eqb first (Nat.even k).
(* In the own turn there is a new ECDH key, and a new D-H key every third time; in the peer's turn the keys are those which
   a message announces. *)
Definition next_own (k : nat) : Prop :=
  tu_their_ecdh (T (S k)) = tu_their_ecdh (T k) /\ tu_their_dh (T (S k)) = tu_their_dh (T k) /\
  (fresh_dh (S k) = false -> tu_dh (T (S k)) = tu_dh (T k)).
Definition next_theirs (g : list did) (k : nat) : Prop :=
  tu_ecdh (T (S k)) = tu_ecdh (T k) /\ tu_dh (T (S k)) = tu_dh (T k) /\
  exists em m text, In (Reads em text) g /\ em_message em = MData4 m /\ d4_i m = N.of_nat k /\
    tu_their_ecdh (T (S k)) = d4_ecdh m /\ tu_their_dh (T (S k)) = match d4_dh m with Some v => v | None => tu_their_dh (T k) end /\
    (fresh_dh (S k) = true <-> d4_dh m <> None).
(* A message of ratchet k has the number k - 1 (the messages of the first two ratchets both have number 0).  A message with
   number k may also be read in ratchet k of the peer, after the own ratchet k + 1 has begun; no client that follows the
   protocol sends one. *)
Definition follows4 (first : bool) (our their : N) (n : nat) (g : list did) : Prop :=
  (forall k, (k < n)%nat -> if own_turn first (S k) then next_own k else next_theirs g k) /\
  (forall m text, In (Sends m text) g -> exists k m4, m = MData4 m4 /\ (k <= n)%nat /\ own_turn first k = true /\
    d4_i m4 = N.of_nat (k - 1) /\ d4_ecdh m4 = pt_mul C (c_ed_g C) (tu_ecdh (T k)) /\
    d4_dh m4 = (if fresh_dh (Nat.max 1 k) then Some (modpow (c_dh3_g C) (tu_dh (T k)) (c_dh3_p C)) else None) /\
    protected4 k our their m4 text) /\
  (forall em text, In (Reads em text) g -> exists k m4, em_message em = MData4 m4 /\ (k <= n)%nat /\ own_turn first k = false /\
    (d4_i m4 = N.of_nat (k - 1) \/ d4_i m4 = N.of_nat k) /\ protected4 k (em_sender em) (em_receiver em) m4 text).
End Schedule.

(** ** From the exchange on *)

(* what is known of the peer's key number 1 *)
Definition first_key (P : N -> Prop) (b y : N) : Prop := b = 1 -> P y.

(* The message em, from client t, completed an exchange: own secret key, the peer's public key, as sent and received in the
   calls h.  The first keys of the conversation are those of the exchange.  [ok]: what is known of each key of the peer and
   its number. *)
Definition schedule3 (ok : N -> N -> Prop) (d : details) (h : list event) (t : N) (em : encoded_message) (ssid : bytes) (g : list did) : Prop :=
  exists X Y, ssid = firstn 8 (sha256 C (x00 :: secret3 (X 1) (Y 1))) /\ follows3 (de_tag d) t X Y g /\ (forall b, known g b -> ok b (Y b)) /\
    ((exists m c rest, em_message em = MRevealSig m /\ has_got C d h t V3 (MDHCommit c) /\
        read_mpi (aes_crypt C (rv_key m) (repeat x00 16) (dc_gx_encrypted c)) = Ok (Y 1, rest) /\
        has_sent d h t V3 (MDHKey (mkDHKey (public3 (X 1))))) \/
     (exists m r, em_message em = MSignature m /\ has_got C d h t V3 (MDHKey (mkDHKey (Y 1))) /\
        has_offered d h t V3 (MDHCommit (mkDHCommit (aes_crypt C r (repeat x00 16) (write_mpi (public3 (X 1)))) (sha256 C (write_mpi (public3 (X 1)))))))).

Definition exchange_key (u : turn) : bytes := H4 64 x03 [ecdh_secret u; H4 32 x01 [dh_secret u]].
(* u: the keys of the exchange; T 0: the first keys of the ratchets.  Who sent the Auth-R message has the first turn.
   [ok]: what is known of the keys of the exchange and of each ratchet. *)
Definition schedule4 (ok : turn -> Prop) (d : details) (h : list event) (t : N) (em : encoded_message) (ssid : bytes) (g : list did) : Prop :=
  exists u T n, let K := exchange_key u in ssid = H4 8 x04 [K] /\ ok u /\ (forall k, (k <= n)%nat -> ok (T k)) /\
    ((exists i m, em_message em = MAuthR m /\ has_offered d h t V4 (MIdentity i) /\
        id_y i = ec_key C (tu_ecdh u) /\ id_b i = dh3_key C (tu_dh u) /\ ar_x m = tu_their_ecdh u /\ ar_a m = tu_their_dh u /\
        id_ecdh0 i = ec_key C (tu_ecdh (T 0%nat)) /\ id_dh0 i = dh3_key C (tu_dh (T 0%nat)) /\
        ar_ecdh0 m = tu_their_ecdh (T 0%nat) /\ ar_dh0 m = tu_their_dh (T 0%nat) /\
        follows4 T K false (de_tag d) t n g) \/
     (exists i m a, em_message em = MAuthI a /\ has_got C d h t V4 (MIdentity i) /\ has_sent d h t V4 (MAuthR m) /\
        ar_x m = ec_key C (tu_ecdh u) /\ ar_a m = dh3_key C (tu_dh u) /\ id_y i = tu_their_ecdh u /\ id_b i = tu_their_dh u /\
        ar_ecdh0 m = ec_key C (tu_ecdh (T 0%nat)) /\ ar_dh0 m = dh3_key C (tu_dh (T 0%nat)) /\
        id_ecdh0 i = tu_their_ecdh (T 0%nat) /\ id_dh0 i = tu_their_dh (T 0%nat) /\
        follows4 T K true (de_tag d) t n g)).
End WithCrypto.
