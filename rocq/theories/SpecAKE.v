(* Vocabulary for the properties of the OTRv3 key exchange. *)
From Verif Require Import Base Types Crypto Encoding Messages SpecWire AKE.
Local Open Scope N_scope.

Section WithCrypto.
Context (C : Crypto).

(* The client's DSA key works: it can be transmitted, and what it signs verifies. *)
Definition dsa_key_ok (k : dsa_keypair) : Prop :=
  dsa_pub_ok C (dsa_pk k) /\
  forall nonce digest, dsa_sig_ok C (c_dsa_sign C k nonce digest) /\
                       c_dsa_verify C (dsa_pk k) digest (c_dsa_sign C k nonce digest) = true.

(* A D-H public key that OTRv3 admits: between the generator and the modulus minus two. *)
Definition dh_public_ok (y : N) : Prop := c_dh_g C <= y /\ y + 2 <= c_dh_p C.

(* Nothing more is asked of the group: the modulus and the generator are positive, and the modulus can
   be transmitted. *)
Definition dh_params_ok : Prop := 0 < c_dh_g C /\ 0 < c_dh_p C /\ mpi_range (c_dh_p C).

(* The values derived from the shared secret s: one hash per purpose. *)
Definition derived3 (which : byte) (s : N) : bytes := sha256 C (which :: write_mpi s).

(* The purposes: encryption key, MAC key of the signature, key of the signed MAC.  The responder of the
   exchange uses the "primed" ones. *)
Definition enc_key3 (responder : bool) (s : N) : bytes :=
  if responder then skipn 16 (derived3 x01 s) else firstn 16 (derived3 x01 s).
Definition signed_key3 (responder : bool) (s : N) : bytes := derived3 (if responder then x04 else x02) s.
Definition mac_key3 (responder : bool) (s : N) : bytes := derived3 (if responder then x05 else x03) s.

(* [ciphertext] with MAC [mac] proves, under the shared secret s, that the owner of the DSA key pk
   takes part in the exchange between the keys [own] (the prover's) and [other]: the MAC is right, the
   plaintext starts with pk, a non-zero key number and a signature, followed by [rest], and the
   signature is valid for the MAC over both keys, pk and the key number. *)
Definition identity_proof3 (responder : bool) (s own other : N) (pk : dsa_pub) (ciphertext mac rest : bytes)
  : Prop :=
  mac = firstn 20 (hmac_sha256 C (mac_key3 responder s) (write_data ciphertext)) /\
  any_nonzero mac = true /\
  exists keyid sg tail,
    read_public_key C (aes_crypt C (enc_key3 responder s) (repeat x00 16) ciphertext) = Ok (pk, tail) /\
    tail = write_u32 keyid ++ write_dsa_signature sg ++ rest /\
    0 < keyid < 4294967296 /\
    dsa_validate C pk sg
      (hmac_sha256 C (signed_key3 responder s)
         (write_mpi own ++ write_mpi other ++ write_public_key pk ++ write_u32 keyid)) = Ok tt.

(** ** One client going through any sequence of calls and messages *)

Inductive ake_run (host : option dsa_keypair) : ake_state -> Prop :=
| ak_new : ake_run host AkeNone
| ak_initiate st rnd r st' m :
    ake_run host st -> ake_initiate C rnd r = Ok (st', m) -> ake_run host st'
| ak_transfer st st' : ake_run host st -> ake_transfer st = Ok st' -> ake_run host st'
| ak_commit st m rnd st' r :
    ake_run host st -> ake_handle_dhcommit C st m rnd = (st', r) -> r <> Panic -> ake_run host st'
| ak_key st m nonce st' r :
    ake_run host st -> ake_handle_dhkey C host nonce st m = (st', r) -> r <> Panic -> ake_run host st'
| ak_reveal st m nonce st' r :
    ake_run host st -> ake_handle_reveal C host nonce st m = (st', r) -> r <> Panic -> ake_run host st'
| ak_signature st m st' r :
    ake_run host st -> ake_handle_signature C st m = (st', r) -> r <> Panic -> ake_run host st'.

(** ** Two clients *)

(* Both sides end with the same session id, each with its own key pair and the other's public key, the
   same shared secret, and the other's identity. *)
Definition ake_agree (ka kb : dsa_keypair) (ma mb : ake_material) : Prop :=
  am_ssid ma = am_ssid mb /\
  am_their_dh ma = dh_public (am_our_dh mb) /\ am_their_dh mb = dh_public (am_our_dh ma) /\
  modpow (am_their_dh ma) (dh_private (am_our_dh ma)) (c_dh_p C)
    = modpow (am_their_dh mb) (dh_private (am_our_dh mb)) (c_dh_p C) /\
  am_their_dsa ma = dsa_pk kb /\ am_their_dsa mb = dsa_pk ka.

(* The responder answers the commitment with a fresh key: it is idle, or waits for a Signature, or it
   sent a commitment itself that is not larger. *)
Definition answers (st : ake_state) (m : dh_commit) : Prop :=
  match st with
  | AkeNone | AkeAwaitingSig _ _ _ _ => True
  | AkeAwaitingDHKey our _ => be_val (sha256 C (write_mpi (dh_public our))) <= be_val (dc_gx_hashed m)
  | AkeAwaitingRevealSig _ _ _ => False
  end.

(* the hash a client with secret x commits to *)
Definition commit_hash (x : N) : N := be_val (sha256 C (write_mpi (modpow (c_dh_g C) x (c_dh_p C)))).

(* What a client does with a message of the exchange: the state afterwards, the replies, and the
   results of completed exchanges; an error is reported to the user and has no reply.  None: crash. *)
Definition ake_receive (host : option dsa_keypair) (rnd : N) (nonce : bytes) (st : ake_state)
    (m : encoded_type) : option (ake_state * list encoded_type * list ake_material) :=
  match m with
  | MDHCommit m =>
      match ake_handle_dhcommit C st m rnd with
      | (st', Ok (ReplyCommit c)) => Some (st', [MDHCommit c], [])
      | (st', Ok (ReplyKey k)) => Some (st', [MDHKey k], [])
      | (st', Err _) => Some (st', [], [])
      | (_, Panic) => None
      end
  | MDHKey m =>
      match ake_handle_dhkey C host nonce st m with
      | (st', Ok r) => Some (st', [MRevealSig r], [])
      | (st', Err _) => Some (st', [], [])
      | (_, Panic) => None
      end
  | MRevealSig m =>
      match ake_handle_reveal C host nonce st m with
      | (st', Ok (mat, s)) => Some (st', [MSignature s], [mat])
      | (st', Err _) => Some (st', [], [])
      | (_, Panic) => None
      end
  | MSignature m =>
      match ake_handle_signature C st m with
      | (st', Ok mat) => Some (st', [], [mat])
      | (st', Err _) => Some (st', [], [])
      | (_, Panic) => None
      end
  | _ => Some (st, [], [])
  end.

(* Two clients and the messages under way, oldest first; [an_done_x]: the exchanges x completed. *)
Record ake_net : Type := mkAkeNet {
  an_a : ake_state; an_b : ake_state;
  an_ab : list encoded_type; an_ba : list encoded_type;
  an_done_a : list ake_material; an_done_b : list ake_material }.

(* The 256-bit hash, the MACs and the D-H key in the message are not among the values that the other
   side must refuse (all-zero hash or MAC, key outside the admitted range). *)
Definition unexceptional (m : encoded_type) : Prop :=
  match m with
  | MDHCommit m => any_nonzero (dc_gx_hashed m) = true
  | MDHKey m => dh_public_ok (dk_gy m)
  | MRevealSig m => any_nonzero (rv_signature_mac m) = true
  | MSignature m => any_nonzero (sg_signature_mac m) = true
  | _ => True
  end.

(* The network delivers the oldest message of a direction; nothing is lost or reordered. *)
Inductive ake_step (ka kb : dsa_keypair) : ake_net -> ake_net -> Prop :=
| as_to_b s m r rnd nonce st out done :
    an_ab s = m :: r -> unexceptional m ->
    ake_receive (Some kb) rnd nonce (an_b s) m = Some (st, out, done) ->
    ake_step ka kb s (mkAkeNet (an_a s) st r (an_ba s ++ out) (an_done_a s) (an_done_b s ++ done))
| as_to_a s m r rnd nonce st out done :
    an_ba s = m :: r -> unexceptional m ->
    ake_receive (Some ka) rnd nonce (an_a s) m = Some (st, out, done) ->
    ake_step ka kb s (mkAkeNet st (an_b s) (an_ab s ++ out) r (an_done_a s ++ done) (an_done_b s)).
Inductive ake_steps (ka kb : dsa_keypair) (s0 : ake_net) : ake_net -> Prop :=
| as_refl : ake_steps ka kb s0 s0
| as_next s s' : ake_steps ka kb s0 s -> ake_step ka kb s s' -> ake_steps ka kb s0 s'.

(* both sides have just called initiate *)
Definition both_initiated (s : ake_net) (xa xb : N) : Prop :=
  exists ra rb ca cb,
    ake_initiate C xa ra = Ok (an_a s, ca) /\ ake_initiate C xb rb = Ok (an_b s, cb) /\
    an_ab s = [MDHCommit ca] /\ an_ba s = [MDHCommit cb] /\ an_done_a s = [] /\ an_done_b s = [].

End WithCrypto.
