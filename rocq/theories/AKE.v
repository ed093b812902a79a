(* src/ake.rs: the OTRv3 authenticated key exchange.  Every error of this file reaches the user as
   OTRError::AuthenticationError (lib.rs:131); the reason inside it is dropped.  Functions of
   `&mut self` return the state afterwards together with the result. *)
From Verif Require Import Base Types Crypto Encoding Messages.
Local Open Scope N_scope.

(* src/ake.rs:472-477 `CryptographicMaterial` *)
Record ake_material : Type := mkAkeMaterial {
  am_ssid : bytes; am_our_dh : dh_keypair; am_their_dh : N; am_their_dsa : dsa_pub }.

(* src/ake.rs:480-507 `AKEState` and its three payloads *)
Inductive ake_state : Type :=
| AkeNone
| AkeAwaitingDHKey (our : dh_keypair) (r : bytes)
| AkeAwaitingRevealSig (our : dh_keypair) (gx_encrypted gx_hashed : bytes)
| AkeAwaitingSig (our : dh_keypair) (gy s : N) (previous : reveal_sig).

(* the reply of `handle_dhcommit`: a D-H Commit or a D-H Key message *)
Inductive commit_reply : Type :=
| ReplyCommit (m : dh_commit)
| ReplyKey (m : dh_key_msg).

(* `?` on an AKE error: CryptoError and OTRError become AKEError *)
Definition as_ake {A} (r : res A) : res A :=
  match r with Ok a => Ok a | Err _ => Err AuthenticationError | Panic => Panic end.
Definition check_ake (b : bool) : res unit := if b then Ok tt else Err AuthenticationError.

Section WithCrypto.
Context (C : Crypto).

Definition zero_nonce : bytes := repeat x00 16.

(* src/ake.rs:38-41, 92-96: the D-H Commit message for a key pair and an AES key *)
Definition dhcommit_message (our : dh_keypair) (r : bytes) : dh_commit :=
  let gxmpi := write_mpi (dh_public our) in
  mkDHCommit (aes_crypt C r zero_nonce gxmpi) (sha256 C gxmpi).

(* src/ake.rs:34-51 `initiate`; [rnd] is the random private key, [r] the random AES key.  The state
   before does not matter. *)
Definition ake_initiate (rnd : N) (r : bytes) : res (ake_state * dh_commit) :=
  let* our := dh_generate C rnd in
  Ok (AkeAwaitingDHKey our r, dhcommit_message our r).

(* src/ake.rs:57-69 `transfer` *)
Definition ake_transfer (st : ake_state) : res ake_state :=
  match st with
  | AkeAwaitingDHKey our r => Ok (AkeAwaitingDHKey our r)
  | _ => Err AuthenticationError
  end.

(* src/ake.rs:155-173 `handle_dhcommit_from_initial` *)
Definition dhcommit_from_initial (st : ake_state) (m : dh_commit) (rnd : N)
  : ake_state * res commit_reply :=
  match dh_generate C rnd with
  | Ok our => (AkeAwaitingRevealSig our (dc_gx_encrypted m) (dc_gx_hashed m),
               Ok (ReplyKey (mkDHKey (dh_public our))))
  | Err e => (st, Err e)
  | Panic => (st, Panic)
  end.

(* src/ake.rs:71-153 `handle_dhcommit`; [rnd] is the random private key where one is drawn *)
Definition ake_handle_dhcommit (st : ake_state) (m : dh_commit) (rnd : N)
  : ake_state * res commit_reply :=
  match st with
  | AkeNone => dhcommit_from_initial st m rnd
  | AkeAwaitingDHKey our r =>
      let our_hash := be_val (sha256 C (write_mpi (dh_public our))) in
      let their_hash := be_val (dc_gx_hashed m) in
      if their_hash <? our_hash
      then (st, Ok (ReplyCommit (dhcommit_message our r)))
      else dhcommit_from_initial st m rnd
  | AkeAwaitingRevealSig our gx_encrypted gx_hashed =>
      (* the commitment of the state is kept, not the one of the message *)
      (AkeAwaitingRevealSig our gx_encrypted gx_hashed, Ok (ReplyKey (mkDHKey (dh_public our))))
  | AkeAwaitingSig _ _ _ _ => dhcommit_from_initial st m rnd
  end.

(* src/ake.rs:178, 262, 324: the key identifier used by both parties *)
Definition AKE_KEYID : N := 1.

(* src/ake.rs:193-201, 327-335, 347-355, 439-447: the MACed statement about both keys *)
Definition ake_m (key : bytes) (first second : N) (pk : dsa_pub) (keyid : N) : bytes :=
  hmac_sha256 C key (write_mpi first ++ write_mpi second ++ write_public_key pk ++ write_u32 keyid).

(* src/ake.rs:205-216, 356-367: sign, encrypt and MAC the identity; the result is the ciphertext and
   its MAC.  [nonce] is the randomness of the signature. *)
Definition ake_prove (k : dsa_keypair) (nonce : bytes) (enc_key mac_key m : bytes) : bytes * bytes :=
  let x := write_public_key (dsa_pk k) ++ write_u32 AKE_KEYID ++ write_dsa_signature (dsa_sign C k nonce m) in
  let enc := aes_crypt C enc_key zero_nonce x in
  (enc, hmac160 C mac_key (write_data enc)).

(* src/ake.rs:175-251 `handle_dhkey`; [host] is what host.keypair() returns *)
Definition ake_handle_dhkey (host : option dsa_keypair) (nonce : bytes) (st : ake_state) (m : dh_key_msg)
  : ake_state * res reveal_sig :=
  match st with
  | AkeNone | AkeAwaitingRevealSig _ _ _ => (st, Err AuthenticationError)
  | AkeAwaitingDHKey our r =>
      if negb (dh_verify_public_key C (dk_gy m)) then (st, Err AuthenticationError)
      else
        let s := dh_shared C our (dk_gy m) in
        let secrets := ake_derive C (write_mpi s) in
        match host with
        | None => (st, Panic)
        | Some k =>
            let m_b := ake_m (as_m1 secrets) (dh_public our) (dk_gy m) (dsa_pk k) AKE_KEYID in
            let '(enc_b, mac_b) := ake_prove k nonce (as_c secrets) (as_m2 secrets) m_b in
            let reply := mkRevealSig r enc_b mac_b in
            (AkeAwaitingSig our (dk_gy m) s reply, Ok reply)
        end
  | AkeAwaitingSig our gy s previous =>
      if negb (gy =? dk_gy m) then (st, Err AuthenticationError) else (st, Ok previous)
  end.

(* src/ake.rs:310-325, 420-435: public key, non-zero key identifier and signature from the decrypted
   proof, and the bytes behind them *)
Definition ake_read_proof (x : bytes) : res (dsa_pub * N * dsa_sig * bytes) :=
  let* (pk, rest) := as_ake (read_public_key C x) in
  let* (keyid, rest) := as_ake (read_u32 rest) in
  let* _ := check_ake (negb (keyid =? 0)) in
  let* (sg, rest) := as_ake (read_dsa_signature C rest) in
  Ok (pk, keyid, sg, rest).

(* src/ake.rs:258-388 `handle_reveal_signature` *)
Definition reveal_result (host : option dsa_keypair) (nonce : bytes) (our : dh_keypair)
    (gx_encrypted gx_hashed : bytes) (m : reveal_sig) : res (ake_material * sig_msg) :=
  let gxmpi := aes_crypt C (rv_key m) zero_nonce gx_encrypted in
  let* _ := check_ake (ct_compare (sha256 C gxmpi) gx_hashed) in
  let* (gx, _) := as_ake (read_mpi gxmpi) in
  let* _ := check_ake (dh_verify_public_key C gx) in
  let s := dh_shared C our gx in
  let secrets := ake_derive C (write_mpi s) in
  let* _ := check_ake (ct_compare (hmac160 C (as_m2 secrets) (write_data (rv_signature_encrypted m)))
                                  (rv_signature_mac m)) in
  let x_b := aes_crypt C (as_c secrets) zero_nonce (rv_signature_encrypted m) in
  let* (pk_b, keyid_b, sig_b, _) := ake_read_proof x_b in
  let m_b := ake_m (as_m1 secrets) gx (dh_public our) pk_b keyid_b in
  let* _ := as_ake (dsa_validate C pk_b sig_b m_b) in
  match host with
  | None => Panic
  | Some k =>
      let m_a := ake_m (as_m1p secrets) (dh_public our) gx (dsa_pk k) AKE_KEYID in
      let '(enc_a, mac_a) := ake_prove k nonce (as_cp secrets) (as_m2p secrets) m_a in
      Ok (mkAkeMaterial (as_ssid secrets) our gx pk_b, mkSigMsg enc_a mac_a)
  end.
Definition ake_handle_reveal (host : option dsa_keypair) (nonce : bytes) (st : ake_state) (m : reveal_sig)
  : ake_state * res (ake_material * sig_msg) :=
  match st with
  | AkeAwaitingRevealSig our gx_encrypted gx_hashed =>
      match reveal_result host nonce our gx_encrypted gx_hashed m with
      | Ok r => (AkeNone, Ok r)
      | Err e => (st, Err e)
      | Panic => (st, Panic)
      end
  | _ => (st, Err AuthenticationError)
  end.

(* src/ake.rs:391-465 `handle_signature` *)
Definition signature_result (our : dh_keypair) (gy s : N) (m : sig_msg) : res ake_material :=
  let secrets := ake_derive C (write_mpi s) in
  let* _ := check_ake (ct_compare (sg_signature_mac m)
                         (hmac160 C (as_m2p secrets) (write_data (sg_signature_encrypted m)))) in
  let x_a := aes_crypt C (as_cp secrets) zero_nonce (sg_signature_encrypted m) in
  let* (pk_a, keyid_a, sig_a, rest) := ake_read_proof x_a in
  let* _ := as_ake (done rest) in
  let m_a := ake_m (as_m1p secrets) gy (dh_public our) pk_a keyid_a in
  let* _ := as_ake (dsa_validate C pk_a sig_a m_a) in
  Ok (mkAkeMaterial (as_ssid secrets) our gy pk_a).
Definition ake_handle_signature (st : ake_state) (m : sig_msg) : ake_state * res ake_material :=
  match st with
  | AkeAwaitingSig our gy s _ =>
      match signature_result our gy s m with
      | Ok r => (AkeNone, Ok r)
      | Err e => (st, Err e)
      | Panic => (st, Panic)
      end
  | _ => (st, Err AuthenticationError)
  end.

End WithCrypto.
