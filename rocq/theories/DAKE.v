(* src/dake.rs: the OTRv4 interactive key exchange.  Random values and the clock are explicit arguments.
   Functions of `&mut self` return the state afterwards together with the result; in this file every
   error leaves the state as it was. *)
From Verif Require Import Base Types Crypto Encoding ClientProfile Messages Ratchet.
Local Open Scope N_scope.

(* What the library asks from the host: src/lib.rs:232-233 `Host::keypair_identity`, 242-248 `Host::client_profile` *)
Record dake_host : Type := mkDakeHost { dh_profile : bytes; dh_identity : eddsa_keypair }.

(* src/dake.rs:500-527 `State` *)
Record awaiting_auth_i : Type := mkAwaitingAuthI {
  wi_profile_alice : profile_payload; wi_profile_bob : profile_payload;
  wi_x : point; wi_y : point; wi_a : N; wi_b : N; wi_k : bytes;
  wi_ecdh0 : ecdh_keypair; wi_dh0 : dh3_keypair; wi_ecdh0_other : point; wi_dh0_other : N }.
Record awaiting_auth_r : Type := mkAwaitingAuthR {
  wr_y : ecdh_keypair; wr_b : dh3_keypair; wr_payload : profile_payload;
  wr_ecdh0 : ecdh_keypair; wr_dh0 : dh3_keypair; wr_identity : identity_msg }.
Inductive dake_state : Type :=
| DakeInitial
| DakeAwaitingAuthR (w : awaiting_auth_r)
| DakeAwaitingAuthI (w : awaiting_auth_i).

(* src/dake.rs:489-496 `MixedKeyMaterial` *)
Record dake_material : Type := mkDakeMaterial {
  dm_ssid : bytes; dm_ratchet : double_ratchet; dm_us : bytes; dm_them : bytes }.

(* the random values of two key pairs of each kind *)
Record dake_rnd : Type := mkDakeRnd {
  dn_ecdh : bytes; dn_dh : N; dn_ecdh0 : bytes; dn_dh0 : N }.

(* the reply of `handle_identity` *)
Inductive identity_reply : Type :=
| ReplyIdentity (m : identity_msg)
| ReplyAuthR (m : authr_msg).

Section WithCrypto.
Context (C : Crypto).

(* src/dake.rs:48-51, 173-176: decode the host's profile, nothing may follow it *)
Definition decode_profile (b : bytes) : res profile_payload :=
  let* (p, rest) := read_payload C b in
  let* _ := done rest in
  Ok p.

(* src/dake.rs:40-74 `initiate` *)
Definition dake_initiate (h : dake_host) (rnd : dake_rnd) (st : dake_state)
  : dake_state * res identity_msg :=
  match st with
  | DakeInitial =>
      match (let* payload := decode_profile (dh_profile h) in
             let* y := ecdh_generate C (dn_ecdh rnd) in
             let b := dh3_generate C (dn_dh rnd) in
             let* ecdh0 := ecdh_generate C (dn_ecdh0 rnd) in
             let dh0 := dh3_generate C (dn_dh0 rnd) in
             let m := mkIdentity payload (ec_public y) (dh3_public b) (ec_public ecdh0) (dh3_public dh0) in
             Ok (mkAwaitingAuthR y b payload ecdh0 dh0 m)) with
      | Ok w => (DakeAwaitingAuthR w, Ok (wr_identity w))
      | Err e => (st, Err e)
      | Panic => (st, Panic)
      end
  | _ => (st, Err IncorrectState)
  end.

(* src/dake.rs:78-109 `transfer` *)
Definition dake_transfer (st : dake_state) : res dake_state :=
  match st with
  | DakeAwaitingAuthR _ => Ok st
  | _ => Err IncorrectState
  end.

(* src/dake.rs:567-574 and 619-626 `validate` *)
Definition validate_keys (p : profile_payload) (y : point) (b : N) (ecdh0 : point) (dh0 : N)
  : res client_profile :=
  let* profile := payload_validate C p in
  let* _ := of_bool (pt_verify C y) in
  let* _ := of_bool (dh3_verify C b) in
  let* _ := of_bool (pt_verify C ecdh0) in
  let* _ := of_bool (dh3_verify C dh0) in
  Ok profile.
Definition identity_validate (m : identity_msg) : res client_profile :=
  validate_keys (id_profile m) (id_y m) (id_b m) (id_ecdh0 m) (id_dh0 m).
Definition authr_validate (m : authr_msg) : res client_profile :=
  validate_keys (ar_profile m) (ar_x m) (ar_a m) (ar_ecdh0 m) (ar_dh0 m).

(* src/dake.rs:161-166: the number compared when both sides sent an Identity message *)
Definition hashed_b (b : N) : N := be_val (shake256 C 32 (write_mpi b)).

(* src/dake.rs:179-193, 280-296, 323-339, 425-439: the first part of the signed text *)
Definition dake_t_keys (first u_bob u_alice : byte) (bob alice : bytes) (y x : point) (b a : N) : bytes :=
  first :: hwc C 64 u_bob bob ++ hwc C 64 u_alice alice
  ++ write_ed448_point y ++ write_ed448_point x ++ write_mpi b ++ write_mpi a.
(* src/dake.rs:197-209, 298-310, 340-352, 441-453: its last part *)
Definition dake_phi (usage : byte) (tag1 tag2 : N) (e1 : point) (d1 : N) (e2 : point) (d2 : N)
    (who1 who2 : bytes) : bytes :=
  hwc C 64 usage (write_u32 tag1 ++ write_u32 tag2 ++ write_ed448_point e1 ++ write_mpi d1
                  ++ write_ed448_point e2 ++ write_mpi d2 ++ write_data who1 ++ write_data who2).

(* src/dake.rs:172-247: the answer to an accepted Identity message *)
Definition answer_identity (h : dake_host) (rnd : dake_rnd) (ring : ring_rnd) (m : identity_msg)
    (bob : client_profile) (account contact : bytes) : res (awaiting_auth_i * authr_msg) :=
  let* payload := decode_profile (dh_profile h) in
  let* x := ecdh_generate C (dn_ecdh rnd) in
  let a := dh3_generate C (dn_dh rnd) in
  let t := dake_t_keys x00 USAGE_AUTH_R_BOB_CLIENT_PROFILE USAGE_AUTH_R_ALICE_CLIENT_PROFILE
             (write_payload (id_profile m)) (dh_profile h) (id_y m) (ec_public x) (id_b m) (dh3_public a) in
  let* profile := payload_validate C payload in
  let* ecdh0 := ecdh_generate C (dn_ecdh0 rnd) in
  let dh0 := dh3_generate C (dn_dh0 rnd) in
  let t := t ++ dake_phi USAGE_AUTH_R_PHI (cp_owner profile) (cp_owner bob) (ec_public ecdh0)
                  (dh3_public dh0) (id_ecdh0 m) (id_dh0 m) account contact in
  let* sigma := ring_sign C (dh_identity h) (cp_forging bob) (ed_public (dh_identity h)) (id_y m) t ring in
  let response := mkAuthR payload (ec_public x) (dh3_public a) sigma (ec_public ecdh0) (dh3_public dh0) in
  let* shared := mixed_new C x a (id_y m) (id_b m) in
  Ok (mkAwaitingAuthI payload (id_profile m) (ec_public x) (id_y m) (dh3_public a) (id_b m) (mx_k shared)
        ecdh0 dh0 (id_ecdh0 m) (id_dh0 m),
      response).

(* src/dake.rs:123-248 `handle_identity` *)
Definition dake_handle_identity (h : dake_host) (rnd : dake_rnd) (ring : ring_rnd) (st : dake_state)
    (m : identity_msg) (account contact : bytes) : dake_state * res identity_reply :=
  match identity_validate m with
  | Err e => (st, Err e)
  | Panic => (st, Panic)
  | Ok bob =>
      let answer :=
        match answer_identity h rnd ring m bob account contact with
        | Ok (w, r) => (DakeAwaitingAuthI w, Ok (ReplyAuthR r))
        | Err e => (st, Err e)
        | Panic => (st, Panic)
        end in
      match st with
      | DakeAwaitingAuthR w =>
          if hashed_b (id_b m) <? hashed_b (id_b (wr_identity w))
          then (st, Ok (ReplyIdentity (wr_identity w)))
          else answer
      | _ => answer
      end
  end.

(* src/dake.rs:366-368, 466-467: session id and first root key from the mixed secret *)
Definition dake_ssid (k : bytes) : bytes := hwc C 8 USAGE_SSID k.
Definition dake_root (k : bytes) : bytes := kdf C 64 USAGE_FIRST_ROOT_KEY k.

(* src/dake.rs:259-388 `handle_auth_r`; [ecdh_rnd], [dh_rnd] are the random values of the first
   rotation, [now] the clock *)
Definition dake_handle_auth_r (h : dake_host) (ring : ring_rnd) (ecdh_rnd : bytes) (dh_rnd now : N)
    (st : dake_state) (m : authr_msg) (account contact : bytes)
  : dake_state * res (dake_material * authi_msg) :=
  match st with
  | DakeAwaitingAuthR w =>
      match (let* alice := authr_validate m in
             let t := dake_t_keys x00 USAGE_AUTH_R_BOB_CLIENT_PROFILE USAGE_AUTH_R_ALICE_CLIENT_PROFILE
                        (write_payload (wr_payload w)) (write_payload (ar_profile m))
                        (ec_public (wr_y w)) (ar_x m) (dh3_public (wr_b w)) (ar_a m) in
             let* bob := payload_validate C (wr_payload w) in
             let t := t ++ dake_phi USAGE_AUTH_R_PHI (cp_owner alice) (cp_owner bob) (ar_ecdh0 m) (ar_dh0 m)
                             (ec_public (wr_ecdh0 w)) (dh3_public (wr_dh0 w)) contact account in
             let* _ := ring_validate C (ar_sigma m) (cp_forging bob) (cp_identity alice)
                         (ec_public (wr_y w)) t in
             let t := dake_t_keys x01 USAGE_AUTH_I_BOB_CLIENT_PROFILE USAGE_AUTH_I_ALICE_CLIENT_PROFILE
                        (write_payload (wr_payload w)) (write_payload (ar_profile m))
                        (ec_public (wr_y w)) (ar_x m) (dh3_public (wr_b w)) (ar_a m) in
             let t := t ++ dake_phi USAGE_AUTH_I_PHI (cp_owner bob) (cp_owner alice)
                             (ec_public (wr_ecdh0 w)) (dh3_public (wr_dh0 w)) (ar_ecdh0 m) (ar_dh0 m)
                             account contact in
             let* sigma := ring_sign C (dh_identity h) (ed_public (dh_identity h)) (cp_forging alice)
                             (ar_x m) t ring in
             let* shared := mixed_new C (wr_y w) (wr_b w) (ar_x m) (ar_a m) in
             let k := mx_k shared in
             let* shared := mixed_new C (wr_ecdh0 w) (wr_dh0 w) (ar_ecdh0 m) (ar_dh0 m) in
             let* ratchet := dr_rotate_sender C (dr_initialize C RECEIVER shared (dake_root k) now)
                               ecdh_rnd dh_rnd now in
             Ok (mkDakeMaterial (dake_ssid k) ratchet
                   (otr4_fingerprint C (cp_identity bob) (cp_forging bob))
                   (otr4_fingerprint C (cp_identity alice) (cp_forging alice)),
                 mkAuthI sigma)) with
      | Ok r => (DakeInitial, Ok r)
      | Err e => (st, Err e)
      | Panic => (st, Panic)
      end
  | _ => (st, Err IncorrectState)
  end.

(* src/dake.rs:400-485 `handle_auth_i`.  The state is never changed. *)
Definition dake_handle_auth_i (now : N) (st : dake_state) (m : authi_msg) (account contact : bytes)
  : dake_state * res dake_material :=
  match st with
  | DakeAwaitingAuthI w =>
      (st,
       let* alice := payload_validate C (wi_profile_alice w) in
       let t := dake_t_keys x01 USAGE_AUTH_I_BOB_CLIENT_PROFILE USAGE_AUTH_I_ALICE_CLIENT_PROFILE
                  (write_payload (wi_profile_bob w)) (write_payload (wi_profile_alice w))
                  (wi_y w) (wi_x w) (wi_b w) (wi_a w) in
       let* bob := payload_validate C (wi_profile_bob w) in
       let t := t ++ dake_phi USAGE_AUTH_I_PHI (cp_owner bob) (cp_owner alice)
                       (wi_ecdh0_other w) (wi_dh0_other w)
                       (ec_public (wi_ecdh0 w)) (dh3_public (wi_dh0 w)) contact account in
       let* _ := ring_validate C (ai_sigma m) (cp_identity bob) (cp_forging alice) (wi_x w) t in
       let* shared := mixed_new C (wi_ecdh0 w) (wi_dh0 w) (wi_ecdh0_other w) (wi_dh0_other w) in
       let ratchet := dr_initialize C SENDER shared (dake_root (wi_k w)) now in
       let* bob := payload_validate C (wi_profile_bob w) in
       Ok (mkDakeMaterial (dake_ssid (wi_k w)) ratchet
             (otr4_fingerprint C (cp_identity alice) (cp_forging alice))
             (otr4_fingerprint C (cp_identity bob) (cp_forging bob))))
  | _ => (st, Err IncorrectState)
  end.

End WithCrypto.
