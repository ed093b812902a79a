(* src/keymanager.rs: the OTRv3 key rotation, counters and MAC key bookkeeping.
   `dh::Keypair::generate` draws 192 random bytes; the number drawn is an explicit argument. *)
From Verif Require Import Base Crypto.
Local Open Scope N_scope.

(* `id + 1` on a u32 (KeyID, src/keymanager.rs:332): overflow panics (overflow checks on). *)
Definition u32_succ (n : N) : res N := if n =? 4294967295 then Panic else Ok (n + 1).

(* src/keymanager.rs:132-135 `KeypairRotation`; the array of two is indexed with id % 2. *)
Record keypair_rotation : Type := mkKR {
  kr_even : dh_keypair; kr_odd : dh_keypair; kr_ack : N }.
Definition kr_slot (r : keypair_rotation) (id : N) : dh_keypair :=
  if N.even id then kr_even r else kr_odd r.
Definition kr_set (r : keypair_rotation) (id : N) (k : dh_keypair) : keypair_rotation :=
  if N.even id then mkKR k (kr_odd r) (kr_ack r) else mkKR (kr_even r) k (kr_ack r).

(* src/keymanager.rs:207-210 `PublicKeyRotation` *)
Record pubkey_rotation : Type := mkPR { pr_even : N; pr_odd : N; pr_id : N }.
Definition pr_slot (r : pubkey_rotation) (id : N) : N := if N.even id then pr_even r else pr_odd r.
Definition pr_set (r : pubkey_rotation) (id key : N) : pubkey_rotation :=
  if N.even id then mkPR key (pr_odd r) (pr_id r) else mkPR (pr_even r) key (pr_id r).

(* src/keymanager.rs:14-23 `KeyManager`; counters are 8 bytes, MAC keys 20 bytes *)
Record key_manager : Type := mkKM {
  km_ours : keypair_rotation;
  km_theirs : pubkey_rotation;
  km_our_ctr : bytes;
  km_their_ctr : bytes;
  km_used_macs : list bytes;
  km_old_macs : bytes }.

(* src/keymanager.rs:328 *)
Definition COUNTER_INITIAL_VALUE : bytes := [x00; x00; x00; x00; x00; x00; x00; x00].

Section WithCrypto.
Context (C : Crypto).

(* src/keymanager.rs:151-160 `KeypairRotation::new` *)
Definition kr_new (id : N) (key : dh_keypair) (rnd0 rnd1 : N) : res keypair_rotation :=
  if id =? 0 then Panic
  else if negb (dh_verify_public_key C (dh_public key)) then Panic
  else
    let* k0 := dh_generate C rnd0 in
    let* k1 := dh_generate C rnd1 in
    Ok (kr_set (mkKR k0 k1 id) id key).
(* src/keymanager.rs:163-166 `KeypairRotation::current` *)
Definition kr_current (r : keypair_rotation) : N * dh_keypair := (kr_ack r, kr_slot r (kr_ack r)).
(* src/keymanager.rs:169-172 `KeypairRotation::next` *)
Definition kr_next (r : keypair_rotation) : res (N * dh_keypair) :=
  let* n := u32_succ (kr_ack r) in Ok (n, kr_slot r n).
(* src/keymanager.rs:174-186 `KeypairRotation::select`; the second alternative is only evaluated when the first fails *)
Definition kr_select (r : keypair_rotation) (id : N) : res dh_keypair :=
  if id =? 0 then Panic
  else if kr_ack r =? id then Ok (kr_slot r id)
  else
    let* n := u32_succ (kr_ack r) in
    if n =? id then Ok (kr_slot r id) else Err ProtocolViolation.
(* src/keymanager.rs:191-203 `KeypairRotation::acknowledge` *)
Definition kr_acknowledge (r : keypair_rotation) (id rnd : N) : res (keypair_rotation * bool) :=
  if id =? kr_ack r then Ok (r, false)
  else
    let* n := u32_succ (kr_ack r) in
    if id =? n then
      let* k := dh_generate C rnd in
      Ok (kr_set (mkKR (kr_even r) (kr_odd r) id) (id + 1) k, true)
    else Err ProtocolViolation.

(* src/keymanager.rs:220-226 `PublicKeyRotation::new` *)
Definition pr_new (id key : N) : res pubkey_rotation :=
  if id =? 0 then Panic
  else if key =? 0 then Panic
  else Ok (pr_set (mkPR 0 0 id) id key).
(* src/keymanager.rs:228-230 `PublicKeyRotation::current` *)
Definition pr_current (r : pubkey_rotation) : N * N := (pr_id r, pr_slot r (pr_id r)).
(* src/keymanager.rs:232-244 `PublicKeyRotation::select`; `self.id - 1` on u32 *)
Definition pr_select (r : pubkey_rotation) (id : N) : res N :=
  if id =? 0 then Panic
  else if pr_id r =? 0 then Panic
  else if (pr_id r - 1 =? id) || (pr_id r =? id) then Ok (pr_slot r id)
  else Err ProtocolViolation.
(* src/keymanager.rs:248-270 `PublicKeyRotation::register` *)
Definition pr_register (r : pubkey_rotation) (id key : N) : res (pubkey_rotation * bool) :=
  if id =? 0 then Panic
  else if key =? 0 then Panic
  else if pr_id r =? id then
    if pr_slot r id =? key then Ok (r, false) else Err ProtocolViolation
  else
    let* n := u32_succ (pr_id r) in
    if n =? id then Ok (pr_set (mkPR (pr_even r) (pr_odd r) id) id key, true)
    else Err ProtocolViolation.

(* src/keymanager.rs:294-310 `Counter::verify`: the new value of the counter *)
Definition ctr_verify (stored ctr : bytes) : res bytes :=
  if all_zero ctr then Err ProtocolViolation
  else match bytes_cmp ctr stored with
       | Some Gt => Ok ctr
       | Some _ => Err ProtocolViolation
       | None => Panic
       end.
(* src/keymanager.rs:312-323 `Counter::take`: add one from the last byte upwards; [None] is a carry
   out of the first byte.  The list is processed from its end. *)
Fixpoint ctr_incr (l : bytes) : option bytes :=
  match l with
  | [] => None
  | b :: r =>
      match ctr_incr r with
      | Some r' => Some (b :: r')
      | None =>
          (* all bytes after b wrapped to zero *)
          if byte_eqb b xff then None else Some (n2b (b2n b + 1) :: repeat x00 (length r))
      end
  end.
Definition ctr_take (stored : bytes) : res bytes :=
  match ctr_incr stored with
  | Some c => if any_nonzero c then Ok c else Panic
  | None => Panic
  end.

(* src/keymanager.rs:32-47 `KeyManager::new` *)
Definition km_new (our_id : N) (our_key : dh_keypair) (their_id their_key rnd0 rnd1 : N)
  : res key_manager :=
  if (our_id =? 0) || (their_id =? 0) then Panic
  else
    let* o := kr_new our_id our_key rnd0 rnd1 in
    let* t := pr_new their_id their_key in
    Ok (mkKM o t COUNTER_INITIAL_VALUE COUNTER_INITIAL_VALUE [] []).

(* src/keymanager.rs:77-81 `current_shared_secret` *)
Definition km_shared_secret (k : key_manager) : N :=
  dh_shared C (snd (kr_current (km_ours k))) (snd (pr_current (km_theirs k))).

(* src/keymanager.rs:107-113 `reveal_used_mac_keys`, 122-125 `reset_counters` *)
Definition km_rotated (k : key_manager) : res key_manager :=
  let old := km_old_macs k ++ concat (km_used_macs k) in
  if negb (Nat.eqb (Nat.modulo (length old) 20) 0) then Panic
  else Ok (mkKM (km_ours k) (km_theirs k) COUNTER_INITIAL_VALUE COUNTER_INITIAL_VALUE [] old).

(* src/keymanager.rs:61-67 `acknowledge_ours` *)
Definition km_acknowledge_ours (k : key_manager) (id rnd : N) : res key_manager :=
  let* (o, rotated) := kr_acknowledge (km_ours k) id rnd in
  let k' := mkKM o (km_theirs k) (km_our_ctr k) (km_their_ctr k) (km_used_macs k) (km_old_macs k) in
  if rotated then km_rotated k' else Ok k'.
(* src/keymanager.rs:83-89 `register_their_key` *)
Definition km_register_their_key (k : key_manager) (id key : N) : res key_manager :=
  let* (t, rotated) := pr_register (km_theirs k) id key in
  let k' := mkKM (km_ours k) t (km_our_ctr k) (km_their_ctr k) (km_used_macs k) (km_old_macs k) in
  if rotated then km_rotated k' else Ok k'.
(* src/keymanager.rs:92-94 `verify_counter` *)
Definition km_verify_counter (k : key_manager) (ctr : bytes) : res key_manager :=
  let* c := ctr_verify (km_their_ctr k) ctr in
  Ok (mkKM (km_ours k) (km_theirs k) (km_our_ctr k) c (km_used_macs k) (km_old_macs k)).
(* src/keymanager.rs:97-99 `take_counter` *)
Definition km_take_counter (k : key_manager) : res (key_manager * bytes) :=
  let* c := ctr_take (km_our_ctr k) in
  Ok (mkKM (km_ours k) (km_theirs k) c (km_their_ctr k) (km_used_macs k) (km_old_macs k), c).
(* src/keymanager.rs:101-105 `register_used_mac_key` *)
Definition km_register_used_mac (k : key_manager) (mac : bytes) : key_manager :=
  if existsb (bytes_eqb mac) (km_used_macs k) then k
  else mkKM (km_ours k) (km_theirs k) (km_our_ctr k) (km_their_ctr k)
            (km_used_macs k ++ [mac]) (km_old_macs k).
(* src/keymanager.rs:115-120 `get_reveal_macs` *)
Definition km_get_reveal_macs (k : key_manager) : res (key_manager * bytes) :=
  if negb (Nat.eqb (Nat.modulo (length (km_old_macs k)) 20) 0) then Panic
  else Ok (mkKM (km_ours k) (km_theirs k) (km_our_ctr k) (km_their_ctr k) (km_used_macs k) [],
           km_old_macs k).

End WithCrypto.
