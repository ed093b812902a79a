(* src/crypto.rs, module otr4: the double ratchet.  Random values (57 bytes for an ECDH key pair, the
   80-byte number for a DH key pair) and the clock (seconds) are explicit arguments. *)
From Verif Require Import Base Crypto KeyManager.
Local Open Scope N_scope.

(* src/crypto.rs:934-939 `Selector` *)
Inductive selector : Type := SENDER | RECEIVER.
Definition selector_eqb (a b : selector) : bool :=
  match a, b with SENDER, SENDER | RECEIVER, RECEIVER => true | _, _ => false end.

(* src/crypto.rs:944-952 `MixedSharedSecret` *)
Record mixed_secret : Type := mkMixed {
  mx_ecdh : ecdh_keypair; mx_dh : dh3_keypair; mx_public_ecdh : point; mx_public_dh : N;
  mx_brace_key : bytes; mx_k : bytes }.

(* src/crypto.rs:885-890 `Ratchet` *)
Record ratchet : Type := mkRatchet { ra_chain_key : bytes; ra_message_id : N }.

(* src/crypto.rs:660-671 `DoubleRatchet` *)
Record double_ratchet : Type := mkDR {
  dr_created : N; dr_shared : mixed_secret; dr_root_key : bytes;
  dr_sender : ratchet; dr_receiver : ratchet; dr_next : selector; dr_i : N; dr_pn : N;
  dr_reveals : bytes }.

Section WithCrypto.
Context (C : Crypto).

(* src/crypto.rs:1027-1059 `MixedSharedSecret::next` *)
Definition mixed_next (ecdh : ecdh_keypair) (dh : dh3_keypair) (public_ecdh : point) (public_dh : N)
    (third : bool) (brace_key_prev : bytes) : res mixed_secret :=
  let* _ := of_bool (pt_verify C public_ecdh) in
  let* _ := of_bool (dh3_verify C public_dh) in
  let k_ecdh := pt_encode (ecdh_shared C ecdh public_ecdh) in
  if all_zero k_ecdh then Panic
  else
    let* brace_key :=
      if third then
        Ok (kdf C 32 USAGE_THIRD_BRACE_KEY (biguint_to_bytes_be (dh3_shared C dh public_dh)))
      else if all_zero brace_key_prev then Panic
      else Ok (kdf C 32 USAGE_BRACE_KEY brace_key_prev) in
    Ok (mkMixed ecdh dh public_ecdh public_dh brace_key
          (kdf2 C 64 USAGE_SHARED_SECRET k_ecdh brace_key)).

(* src/crypto.rs:965-980 `new` *)
Definition mixed_new (ecdh : ecdh_keypair) (dh : dh3_keypair) (public_ecdh : point) (public_dh : N)
  : res mixed_secret :=
  mixed_next ecdh dh public_ecdh public_dh true (repeat x00 32).

(* a `expect` or `unwrap`: an error becomes a panic *)
Definition expect {A} (r : res A) : res A := match r with Ok a => Ok a | _ => Panic end.

(* src/crypto.rs:986-1001 `rotate_keypairs` *)
Definition mixed_rotate_keypairs (m : mixed_secret) (third : bool) (ecdh_rnd : bytes) (dh_rnd : N)
  : res mixed_secret :=
  let dh := if third then dh3_generate C dh_rnd else mx_dh m in
  let* ecdh := ecdh_generate C ecdh_rnd in
  expect (mixed_next ecdh dh (mx_public_ecdh m) (mx_public_dh m) third (mx_brace_key m)).

(* src/crypto.rs:1010-1025 `rotate_others` *)
Definition mixed_rotate_others (m : mixed_secret) (third : bool) (ecdh_next : point) (dh_next : N)
  : res mixed_secret :=
  if negb (Bool.eqb third (negb (dh_next =? mx_public_dh m))) then Panic
  else mixed_next (mx_ecdh m) (mx_dh m) ecdh_next dh_next third (mx_brace_key m).

(* src/crypto.rs:904-907 `Ratchet::rotate` *)
Definition ratchet_rotate (r : ratchet) : res ratchet :=
  let* n := u32_succ (ra_message_id r) in
  Ok (mkRatchet (kdf C 64 USAGE_NEXT_CHAIN_KEY (ra_chain_key r)) n).

(* src/crypto.rs:910-916 `Ratchet::keys`: MK_enc, MK_mac.  The extra symmetric key is not used by the
   library and left out.  debug_assert on the chain key. *)
Definition ratchet_keys (r : ratchet) : res (bytes * bytes) :=
  if all_zero (ra_chain_key r) then Panic
  else
    let mk_enc := kdf C 64 USAGE_MESSAGE_KEY (ra_chain_key r) in
    Ok (mk_enc, kdf C 64 USAGE_MAC_KEY mk_enc).

(* src/crypto.rs:684-725 `initialize` *)
Definition dr_initialize (sel : selector) (shared : mixed_secret) (prev_root : bytes) (now : N)
  : double_ratchet :=
  let chain := mkRatchet (kdf2 C 64 USAGE_CHAIN_KEY prev_root (mx_k shared)) 0 in
  let zero := mkRatchet (repeat x00 64) 0 in
  let root := kdf2 C 64 USAGE_ROOT_KEY prev_root (mx_k shared) in
  match sel with
  | SENDER => mkDR now shared root chain zero RECEIVER 0 0 []
  | RECEIVER => mkDR now shared root zero chain SENDER 0 0 []
  end.

(* src/crypto.rs:738-740 `collect_reveals` *)
Definition dr_collect_reveals (d : double_ratchet) : double_ratchet * bytes :=
  (mkDR (dr_created d) (dr_shared d) (dr_root_key d) (dr_sender d) (dr_receiver d) (dr_next d)
        (dr_i d) (dr_pn d) [],
   dr_reveals d).

(* src/crypto.rs:747-766 `rotate_sender` *)
Definition dr_rotate_sender (d : double_ratchet) (ecdh_rnd : bytes) (dh_rnd now : N)
  : res double_ratchet :=
  if negb (selector_eqb SENDER (dr_next d)) then Panic
  else
    let* shared := mixed_rotate_keypairs (dr_shared d) (dr_i d mod 3 =? 0) ecdh_rnd dh_rnd in
    let* i := u32_succ (dr_i d) in
    Ok (mkDR now shared (kdf2 C 64 USAGE_ROOT_KEY (dr_root_key d) (mx_k shared))
          (mkRatchet (kdf2 C 64 USAGE_CHAIN_KEY (dr_root_key d) (mx_k shared)) 0)
          (dr_receiver d) RECEIVER i (ra_message_id (dr_sender d)) (dr_reveals d)).

(* src/crypto.rs:774-777 `rotate_sender_chainkey` *)
Definition dr_rotate_sender_chainkey (d : double_ratchet) : res double_ratchet :=
  if negb (selector_eqb RECEIVER (dr_next d)) then Panic
  else
    let* s := ratchet_rotate (dr_sender d) in
    Ok (mkDR (dr_created d) (dr_shared d) (dr_root_key d) s (dr_receiver d) (dr_next d)
          (dr_i d) (dr_pn d) (dr_reveals d)).

(* src/crypto.rs:786-814 `rotate_receiver` *)
Definition dr_rotate_receiver (d : double_ratchet) (ecdh_next : point) (dh_next now : N)
  : res double_ratchet :=
  if negb (selector_eqb RECEIVER (dr_next d)) then Panic
  else if dh_next =? 0 then Panic
  else if negb (Bool.eqb (dr_i d mod 3 =? 0) (negb (dh_next =? mx_public_dh (dr_shared d)))) then Panic
  else
    let* shared := mixed_rotate_others (dr_shared d) (dr_i d mod 3 =? 0) ecdh_next dh_next in
    let* i := u32_succ (dr_i d) in
    Ok (mkDR now shared (kdf2 C 64 USAGE_ROOT_KEY (dr_root_key d) (mx_k shared))
          (dr_sender d)
          (mkRatchet (kdf2 C 64 USAGE_CHAIN_KEY (dr_root_key d) (mx_k shared)) 0)
          SENDER i (dr_pn d) (dr_reveals d)).

Definition dr_with_receiver (d : double_ratchet) (r : ratchet) (reveals : bytes) : double_ratchet :=
  mkDR (dr_created d) (dr_shared d) (dr_root_key d) (dr_sender d) r (dr_next d)
       (dr_i d) (dr_pn d) reveals.

(* src/crypto.rs:816-818 `rotate_receiver_chainkey` *)
Definition dr_rotate_receiver_chainkey (d : double_ratchet) : res double_ratchet :=
  let* r := ratchet_rotate (dr_receiver d) in Ok (dr_with_receiver d r (dr_reveals d)).

(* src/crypto.rs:822-825 `confirm_receiver_keys` *)
Definition dr_confirm_receiver_keys (d : double_ratchet) : res double_ratchet :=
  let* (_, mac) := ratchet_keys (dr_receiver d) in
  let* r := ratchet_rotate (dr_receiver d) in
  Ok (dr_with_receiver d r (dr_reveals d ++ mac)).

End WithCrypto.
