(* src/protocol.rs: protecting and unprotecting OTRv4 data messages. *)
From Verif Require Import Base Types Crypto Encoding Messages KeyManager DataV3 Ratchet.
Local Open Scope N_scope.

(* The random values and the clock reading that a send consumes. *)
Record send_rnd : Type := mkSendRnd { sr_ecdh : bytes; sr_dh : N; sr_now : N }.

Section WithCrypto.
Context (C : Crypto).

(* src/protocol.rs:718-723 *)
Definition extract_encryption_key (mk_enc : bytes) : bytes := firstn 32 mk_enc.

(* src/protocol.rs:578-629 `encrypt_message` *)
Definition encrypt4 (our_instance their_instance : N) (d : double_ratchet) (ignore_unreadable : bool)
    (content reveals : bytes) (rnd : send_rnd) : res (data4 * double_ratchet) :=
  let* (d, reveals) :=
    if selector_eqb (dr_next d) SENDER then
      let '(d, r) := dr_collect_reveals d in
      let* d := dr_rotate_sender C d (sr_ecdh rnd) (sr_dh rnd) (sr_now rnd) in
      Ok (d, reveals ++ r)
    else Ok (d, reveals) in
  let* (mk_enc, mk_mac) := ratchet_keys C (dr_sender d) in
  let encrypted := chacha_crypt C (extract_encryption_key mk_enc) content in
  let msg_i := dr_i d - 1 in
  let dh := if msg_i mod 3 =? 0 then Some (dh3_public (mx_dh (dr_shared d))) else None in
  let msg auth := mkData4 ignore_unreadable (dr_pn d) msg_i (ra_message_id (dr_sender d))
                    (ec_public (mx_ecdh (dr_shared d))) dh encrypted auth reveals in
  let auth := kdf2 C 64 USAGE_AUTHENTICATOR mk_mac
                (encode_authenticator_data4 our_instance their_instance (msg (repeat x00 64))) in
  let message := msg auth in
  (* debug_assert!(message.validate().is_ok()) *)
  let* _ := expect (data4_validate C message) in
  let* d := dr_rotate_sender_chainkey C d in
  Ok (message, d).

(* src/protocol.rs:511-524 `finish` and 526-543 `expire`: the message that ends the session *)
Definition DISCONNECT_CONTENT : bytes := x00 :: write_u16 1 ++ write_u16 0.
Definition final4 (our_instance their_instance : N) (d : double_ratchet) (rnd : send_rnd)
  : res (data4 * double_ratchet) :=
  let '(d, r) := dr_collect_reveals d in
  encrypt4 our_instance their_instance d true DISCONNECT_CONTENT r rnd.

(* src/protocol.rs:695-703: `while speculate.k() < msg.j`.  The number of rounds is j - k. *)
Fixpoint fast_forward (n : nat) (d : double_ratchet) : res double_ratchet :=
  match n with
  | O => Ok d
  | S n => let* d := dr_rotate_receiver_chainkey C d in fast_forward n d
  end.

(* src/protocol.rs:652-693: select the ratchet that the message belongs to (a working copy) *)
Definition speculate4 (d : double_ratchet) (m : data4) (now : N) : res double_ratchet :=
  if dr_i d <? d4_i m then Err ProtocolViolation
  else
    let current := dr_i d - 1 in
    if (d4_i m <? current) || ((d4_i m =? current) && (d4_j m <? ra_message_id (dr_receiver d)))
    then Err UserError
    else if d4_i m =? dr_i d then
      if negb (selector_eqb (dr_next d) RECEIVER) then Err ProtocolViolation
      else if negb (Bool.eqb (d4_i m mod 3 =? 0) (match d4_dh m with Some _ => true | None => false end))
      then Panic
      else
        let other := mx_public_dh (dr_shared d) in
        match d4_dh m with
        | Some v => if v =? other then Err ProtocolViolation
                    else dr_rotate_receiver C d (d4_ecdh m) v now
        | None => dr_rotate_receiver C d (d4_ecdh m) other now
        end
    else Ok d.

(* src/protocol.rs:631-716 `decrypt_message`: the ratchet afterwards, and the result.  The ratchet is
   only replaced after the authenticator was verified. *)
Definition decrypt4 (d : double_ratchet) (m : data4) (authenticator_data : bytes) (now : N)
  : double_ratchet * res bytes :=
  match
   (let* s := speculate4 d m now in
    let* s := fast_forward (N.to_nat (d4_j m - ra_message_id (dr_receiver s))) s in
    let* (mk_enc, mk_mac) := ratchet_keys C (dr_receiver s) in
    let auth := kdf2 C 64 USAGE_AUTHENTICATOR mk_mac authenticator_data in
    let* _ := of_bool (ct_compare auth (d4_authenticator m)) in
    let content := chacha_crypt C (extract_encryption_key mk_enc) (d4_encrypted m) in
    let* s := dr_confirm_receiver_keys C s in
    Ok (s, content))
  with
  | Ok (s, content) => (s, Ok content)
  | Err e => (d, Err e)
  | Panic => (d, Panic)
  end.

End WithCrypto.
