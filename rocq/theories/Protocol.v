(* src/protocol.rs: the protocol states.  The trait object is a value of [pstate]; random values and
   the clock are explicit arguments.  Functions of `&mut self` return the state afterwards. *)
From Verif Require Import Base Types Crypto Encoding Messages KeyManager DataV3 Ratchet DataV4 AKE DAKE SMP SMP4.
Local Open Scope N_scope.

(* src/lib.rs:151-155 *)
Inductive protocol_status : Type := Plaintext | Encrypted | Finished.
Definition status_eqb (a b : protocol_status) : bool :=
  match a, b with
  | Plaintext, Plaintext | Encrypted, Encrypted | Finished, Finished => true
  | _, _ => false
  end.

(* src/protocol.rs:74, 181-186, 431-436, 727-728: the four implementations of `ProtocolState` *)
Inductive pstate : Type :=
| PPlain
| PEnc3 (our their : N) (k : key_manager) (smp : smp_context)
| PEnc4 (our their : N) (d : double_ratchet) (smp : smp4_context)
| PFin.

(* src/protocol.rs:70-72 `new_state` *)
Definition pstate_new : pstate := PPlain.

(* `status`: src/protocol.rs:77-79, 189-191, 439-441, 730-732 *)
Definition p_status (s : pstate) : protocol_status :=
  match s with PPlain => Plaintext | PEnc3 _ _ _ _ | PEnc4 _ _ _ _ => Encrypted | PFin => Finished end.
(* `version`: src/protocol.rs:81-83, 193-195, 443-445, 734-737 *)
Definition p_version (s : pstate) : version :=
  match s with PEnc3 _ _ _ _ => V3 | PEnc4 _ _ _ _ => V4 | _ => VNone end.

(* src/protocol.rs:836-851 `ProtocolMaterial` *)
Inductive material : Type :=
| MatAKE (m : ake_material)
| MatDAKE (m : dake_material).

Section WithCrypto.
Context (C : Crypto).

(* src/protocol.rs:323-339 `EncryptedOTR3State::new`; the numbers are the random private keys of the
   two next key pairs *)
Definition enc3_new (our their : N) (m : ake_material) (rnd0 rnd1 : N) : res pstate :=
  let* k := km_new C 1 (am_our_dh m) 1 (am_their_dh m) rnd0 rnd1 in
  Ok (PEnc3 our their k (smp_new (am_ssid m) (otr3_fingerprint C (am_their_dsa m)))).
(* src/protocol.rs:127-137, 262-272, 498-508, 784-794 *)
Definition enc4_new (our their : N) (m : dake_material) : pstate :=
  PEnc4 our their (dm_ratchet m) (smp4_new (dm_us m) (dm_them m) (dm_ssid m)).

(* `secure`: src/protocol.rs:104-138, 236-273, 481-509, 758-795 *)
Definition p_secure (s : pstate) (our their : N) (m : material) (rnd0 rnd1 : N) : res pstate :=
  match s, m with
  | PEnc4 _ _ _ _, MatAKE _ => Panic
  | _, MatAKE m => enc3_new our their m rnd0 rnd1
  | _, MatDAKE m => Ok (enc4_new our their m)
  end.

(* what `handle` and `handle4` do with the decrypted bytes: src/protocol.rs:209-223, 462-478.  [s] is
   the state with the keys after decrypting. *)
Definition after_decrypt (s : pstate) (their : N) (r : res bytes) : pstate * res content_message :=
  match r with
  | Ok decrypted =>
      match parse_message decrypted with
      | Ok (ConfidentialFinished content) => (PFin, Ok (ConfidentialFinished content))
      | Ok m => (s, Ok m)
      | Err e => (s, Err e)
      | Panic => (s, Panic)
      end
  | Err _ => (s, Err (UnreadableMessage their))
  | Panic => (s, Panic)
  end.

(* `handle`: src/protocol.rs:85-92, 197-224, 447-454, 739-746; the caller replaces the state when the
   second component of the code's result is present *)
Definition p_handle3 (s : pstate) (m : data3) (auth : bytes) (rnd : N) : pstate * res content_message :=
  match s with
  | PPlain | PFin => (s, Err (UnreadableMessage 0))
  | PEnc3 our their k smp =>
      let '(k', r) := decrypt3 C k m auth rnd in after_decrypt (PEnc3 our their k' smp) their r
  | PEnc4 _ their _ _ => (s, Err (UnreadableMessage their))
  end.
(* `handle4`: src/protocol.rs:94-102, 226-234, 456-479, 748-756 *)
Definition p_handle4 (s : pstate) (m : data4) (auth : bytes) (now : N) : pstate * res content_message :=
  match s with
  | PPlain | PFin => (s, Err (UnreadableMessage 0))
  | PEnc3 _ their _ _ => (s, Err (UnreadableMessage their))
  | PEnc4 our their d smp =>
      let '(d', r) := decrypt4 C d m auth now in after_decrypt (PEnc4 our their d' smp) their r
  end.

(* `prepare`: src/protocol.rs:149-153, 291-299, 544-554, 805-807.  No state is kept after a panic. *)
Definition p_prepare (s : pstate) (ignore_unreadable : bool) (content : bytes) (rnd : send_rnd)
  : res (pstate * encoded_type) :=
  match s with
  | PPlain => Ok (s, MUnencoded content)
  | PEnc3 our their k smp =>
      let* (m, k') := encrypt3 C our their k ignore_unreadable content in
      Ok (PEnc3 our their k' smp, MData m)
  | PEnc4 our their d smp =>
      let* (m, d') := encrypt4 C our their d ignore_unreadable content [] rnd in
      Ok (PEnc4 our their d' smp, MData4 m)
  | PFin => Err IncorrectState
  end.

(* `finish`: src/protocol.rs:140-142, 275-284, 511-524, 797-799; the next state is always PPlain *)
Definition p_finish (s : pstate) (rnd : send_rnd) : res (option encoded_type) :=
  match s with
  | PPlain | PFin => Ok None
  | PEnc3 our their k _ =>
      let* (m, _) := encrypt3 C our their k true DISCONNECT_CONTENT in Ok (Some (MData m))
  | PEnc4 our their d _ =>
      let* (m, _) := final4 C our their d rnd in Ok (Some (MData4 m))
  end.

(* `expire`: src/protocol.rs:144-147, 286-289, 526-542, 801-803; the next state is PFin.  The clock
   reading is the one in [rnd]; `elapsed` is zero if the clock went backwards. *)
Definition p_expire (s : pstate) (timeout : N) (rnd : send_rnd) : res (option encoded_type) :=
  match s with
  | PEnc4 our their d _ =>
      if sr_now rnd - dr_created d <? timeout then Ok None
      else let* (m, _) := final4 C our their d rnd in Ok (Some (MData4 m))
  | _ => Ok None
  end.

End WithCrypto.
