(* src/protocol.rs: protecting and unprotecting OTRv3 data messages, and the layout of the
   protected content. *)
From Verif Require Import Base Types Crypto Encoding Messages KeyManager.
Local Open Scope N_scope.

Section WithCrypto.
Context (C : Crypto).

(* src/protocol.rs:349-350, 414-415: the AES counter block, counter then eight zero bytes *)
Definition nonce_of_ctr (ctr : bytes) : bytes := ctr ++ repeat x00 8.

(* src/protocol.rs:341-388 `encrypt_message`.  The result is the message and the new key manager;
   the assertions are panics. *)
Definition encrypt3 (our_instance their_instance : N) (k : key_manager) (ignore_unreadable : bool)
    (plaintext : bytes) : res (data3 * key_manager) :=
  let* (k, ctr) := km_take_counter k in
  let '(receiver_keyid, receiver_key) := pr_current (km_theirs k) in
  let '(our_keyid, our_dh) := kr_current (km_ours k) in
  let* (_, next_dh) := kr_next (km_ours k) in
  let secbytes := write_mpi (km_shared_secret C k) in
  let* secrets := data_derive C (dh_public our_dh) receiver_key secbytes in
  let ciphertext := aes_crypt C (ds_send secrets) (nonce_of_ctr ctr) plaintext in
  if all_zero ciphertext then Panic
  else
    let* (k, oldmackeys) := km_get_reveal_macs k in
    if negb (Nat.eqb (length oldmackeys) 0) && all_zero oldmackeys then Panic
    else
      let m := mkData3 ignore_unreadable our_keyid receiver_keyid (dh_public next_dh) ctr ciphertext
                 (repeat x00 20) oldmackeys in
      let authenticator := hmac_sha1 C (sender_mac_key C secrets)
                             (encode_authenticator_data our_instance their_instance m) in
      if all_zero authenticator then Panic
      else Ok (mkData3 ignore_unreadable our_keyid receiver_keyid (dh_public next_dh) ctr ciphertext
                 authenticator oldmackeys, k).

(* Continue with [f] on success; on an error keep the state reached so far. *)
Definition keep {S A B} (s : S) (r : res A) (f : A -> S * res B) : S * res B :=
  match r with Ok a => f a | Err e => (s, Err e) | Panic => (s, Panic) end.

(* src/protocol.rs:390-428 `decrypt_message`: the key manager afterwards, and the result.  [rnd] is
   the random number for the key pair that a rotation of our keys generates. *)
Definition decrypt3 (k : key_manager) (m : data3) (authenticator_data : bytes) (rnd : N)
  : key_manager * res bytes :=
  keep k (pr_select (km_theirs k) (d3_sender_keyid m)) (fun their_key =>
  keep k (kr_select (km_ours k) (d3_receiver_keyid m)) (fun our_dh =>
  let secbytes := write_mpi (dh_shared C our_dh their_key) in
  keep k (data_derive C (dh_public our_dh) their_key secbytes) (fun secrets =>
  let mac_key := receiver_mac_key C secrets in
  let authenticator := hmac_sha1 C mac_key authenticator_data in
  keep k (of_bool (ct_compare (d3_authenticator m) authenticator)) (fun _ =>
  let k1 := km_register_used_mac k mac_key in
  keep k1 (km_verify_counter k1 (d3_ctr m)) (fun k2 =>
  let nonce := nonce_of_ctr (d3_ctr m) in
  keep k2 (if all_zero nonce then Err ProtocolViolation else Ok tt) (fun _ =>
  keep k2 (km_acknowledge_ours C k2 (d3_receiver_keyid m) rnd) (fun k3 =>
  keep k3 (let* n := u32_succ (d3_sender_keyid m) in km_register_their_key k3 n (d3_dh_y m)) (fun k4 =>
  (k4, Ok (aes_crypt C (ds_recv secrets) nonce (d3_encrypted m))))))))))).

(* src/protocol.rs:871-874 `Message` *)
Inductive content_message : Type :=
| Confidential (content : bytes) (tlvs : list tlv)
| ConfidentialFinished (content : bytes).

(* src/protocol.rs:18-23 *)
Definition TLV_TYPE_0_PADDING : N := 0.
Definition TLV_TYPE_1_DISCONNECT : N := 1.

(* src/protocol.rs:853-869 `parse_message`.  `read_tlvs` consumes the whole buffer, so `done` holds. *)
Definition parse_message (raw : bytes) : res content_message :=
  let '(content, rest) := read_bytes_null_terminated raw in
  let* ts := read_tlvs rest in
  let tlvs := filter (fun t => negb (tlv_type t =? TLV_TYPE_0_PADDING)) ts in
  if existsb (fun t => tlv_type t =? TLV_TYPE_1_DISCONNECT) tlvs
  then Ok (ConfidentialFinished content)
  else Ok (Confidential content tlvs).

End WithCrypto.
