(* Vocabulary for what can be learned from a session's messages and from its state. *)
From Verif Require Import Base Types Crypto Encoding Messages Fragment KeyManager DataV3 Ratchet DataV4
  AKE DAKE SMP SMP4 Protocol Session SpecSession.
Local Open Scope N_scope.

(* the same primitives, except for the key stream of the cipher: AES in OTRv3, ChaCha20 in OTRv4 *)
Definition with_aes (C : Crypto) (ks : bytes -> bytes -> nat -> bytes) : Crypto :=
  mkCrypto (c_sha1 C) (c_sha256 C) (c_hmac_sha1 C) (c_hmac_sha256 C) (c_shake256 C) ks (c_chacha20 C)
    (c_dsa_components_ok C) (c_dsa_sig_ok C) (c_dsa_sign C) (c_dsa_verify C) (c_dh_p C) (c_dh_g C)
    (c_dh3_p C) (c_dh3_q C) (c_dh3_g C) (c_ed_p C) (c_ed_q C) (c_ed_d C) (c_ed_g C).
Definition with_chacha (C : Crypto) (ks : bytes -> nat -> bytes) : Crypto :=
  mkCrypto (c_sha1 C) (c_sha256 C) (c_hmac_sha1 C) (c_hmac_sha256 C) (c_shake256 C) (c_aes_ctr C) ks
    (c_dsa_components_ok C) (c_dsa_sig_ok C) (c_dsa_sign C) (c_dsa_verify C) (c_dh_p C) (c_dh_g C)
    (c_dh3_p C) (c_dh3_q C) (c_dh3_g C) (c_ed_p C) (c_ed_q C) (c_ed_d C) (c_ed_g C).

(* the hash functions do not tell the two secrets apart, whatever is hashed in front of them *)
Definition hashed_alike (C : Crypto) (a b : bytes) : Prop :=
  (forall p, sha256 C (p ++ a) = sha256 C (p ++ b)) /\
  (forall n p, shake256 C n (p ++ write_data a) = shake256 C n (p ++ write_data b)).
(* two users who answer the same questions, with such secrets *)
Definition answers_alike (C : Crypto) (f g : bytes -> option bytes) : Prop := forall q,
  match f q, g q with
  | Some a, Some b => hashed_alike C a b
  | None, None => True
  | _, _ => False
  end.
(* the surroundings of a call, with other answers of the user *)
Definition with_answers (e : env) (f : bytes -> option bytes) : env :=
  mkEnv (ev_message_size e) (ev_dsa e) (ev_profile e) (ev_identity e) f (ev_dh e) (ev_r e) (ev_nonce e)
    (ev_km0 e) (ev_km1 e) (ev_ack e) (ev_dake e) (ev_ring e) (ev_send e) (ev_smp e) (ev_smp4 e) (ev_fragment e).

(** ** Sessions that differ in one secret *)

(* the session with another state of the conversation with client t *)
Definition with_state (s : session) (t : N) (st : pstate) : session :=
  match get_inst t (se_instances s) with Some i => put s t (set_state i st) | None => s end.
(* OTRv4: another chain key for sending, or for receiving *)
Definition with_sending (d : double_ratchet) (ck : bytes) : double_ratchet :=
  mkDR (dr_created d) (dr_shared d) (dr_root_key d) (mkRatchet ck (ra_message_id (dr_sender d))) (dr_receiver d)
    (dr_next d) (dr_i d) (dr_pn d) (dr_reveals d).
Definition with_receiving (d : double_ratchet) (ck : bytes) : double_ratchet :=
  mkDR (dr_created d) (dr_shared d) (dr_root_key d) (dr_sender d) (mkRatchet ck (ra_message_id (dr_receiver d)))
    (dr_next d) (dr_i d) (dr_pn d) (dr_reveals d).
(* OTRv4: another elliptic-curve key pair of ours, and another secret shared with the peer *)
Definition with_shared (d : double_ratchet) (pair : ecdh_keypair) (k : bytes) : double_ratchet :=
  let m := dr_shared d in
  mkDR (dr_created d) (mkMixed pair (mx_dh m) (mx_public_ecdh m) (mx_public_dh m) (mx_brace_key m) k)
    (dr_root_key d) (dr_sender d) (dr_receiver d) (dr_next d) (dr_i d) (dr_pn d) (dr_reveals d).
(* OTRv4: another 3072-bit key pair of ours *)
Definition with_dh (d : double_ratchet) (pair : dh3_keypair) : double_ratchet :=
  let m := dr_shared d in
  mkDR (dr_created d) (mkMixed (mx_ecdh m) pair (mx_public_ecdh m) (mx_public_dh m) (mx_brace_key m) (mx_k m))
    (dr_root_key d) (dr_sender d) (dr_receiver d) (dr_next d) (dr_i d) (dr_pn d) (dr_reveals d).
(* OTRv3: another key pair in use *)
Definition with_pair (k : key_manager) (x : dh_keypair) : key_manager :=
  mkKM (kr_set (km_ours k) (kr_ack (km_ours k)) x) (km_theirs k) (km_our_ctr k) (km_their_ctr k)
    (km_used_macs k) (km_old_macs k).

(** ** Recorded traffic *)

(* the call delivers something that was delivered in history h before *)
Definition recorded (h : list event) (ev : event) : Prop :=
  exists ev0 p, In ev0 h /\ ev_op ev0 = OpReceive p /\ ev_op ev = OpReceive p.
(* the call shows the text of an encrypted message of client t, in version v *)
Definition shows_text (C : Crypto) (v : version) (t : N) (ev : event) : Prop :=
  exists p em c x, ev_op ev = OpReceive p /\ match_fragment p = false /\ parse C p = Ok (MsgEncoded em) /\ em_version em = v /\
    ev_result ev = Ok (AnMessage (UMConfidential t c x)).
