(* Vocabulary for the properties of the OTRv4 key exchange.  Alice is the party that receives the
   Identity message and sends Auth-R; Bob sends the Identity message and Auth-I. *)
From Verif Require Import Base Types Crypto Encoding ClientProfile Messages SpecWire Ratchet DataV4 SpecCurve SpecData4
  DAKE.
Local Open Scope N_scope.

(* Everything the two parties sign: both encoded profiles, the four keys of the exchange, and the
   context "phi": instance tags, first ratchet keys and account names. *)
Record dake_view : Type := mkView {
  vw_bob : bytes; vw_alice : bytes;
  vw_y : point; vw_x : point; vw_b : N; vw_a : N;
  vw_bob_tag : N; vw_alice_tag : N;
  vw_bob_ecdh0 : point; vw_bob_dh0 : N; vw_alice_ecdh0 : point; vw_alice_dh0 : N;
  vw_bob_name : bytes; vw_alice_name : bytes }.

Section WithCrypto.
Context (C : Crypto).

Definition dake_keys_text (v : dake_view) : bytes :=
  write_ed448_point (vw_y v) ++ write_ed448_point (vw_x v) ++ write_mpi (vw_b v) ++ write_mpi (vw_a v).
Definition half_phi (ecdh0 : point) (dh0 : N) : bytes := write_ed448_point ecdh0 ++ write_mpi dh0.
(* The signed texts of Auth-R and Auth-I; the sender's half comes first in phi. *)
Definition auth_r_text (v : dake_view) : bytes :=
  [x00] ++ kdf C 64 x05 (vw_bob v) ++ kdf C 64 x06 (vw_alice v) ++ dake_keys_text v
  ++ kdf C 64 x07 (write_u32 (vw_alice_tag v) ++ write_u32 (vw_bob_tag v)
       ++ half_phi (vw_alice_ecdh0 v) (vw_alice_dh0 v) ++ half_phi (vw_bob_ecdh0 v) (vw_bob_dh0 v)
       ++ write_data (vw_alice_name v) ++ write_data (vw_bob_name v)).
Definition auth_i_text (v : dake_view) : bytes :=
  [x01] ++ kdf C 64 x08 (vw_bob v) ++ kdf C 64 x09 (vw_alice v) ++ dake_keys_text v
  ++ kdf C 64 x0a (write_u32 (vw_bob_tag v) ++ write_u32 (vw_alice_tag v)
       ++ half_phi (vw_bob_ecdh0 v) (vw_bob_dh0 v) ++ half_phi (vw_alice_ecdh0 v) (vw_alice_dh0 v)
       ++ write_data (vw_bob_name v) ++ write_data (vw_alice_name v)).

(* A ring signature of the text m by one of the keys A1, A2, A3: the hash of the three commitments
   r_i G + c_i A_i is the sum of the challenges c_i modulo the group order, and is not zero. *)
Definition ring_valid (sg : ring_sig) (A1 A2 A3 : point) (m : bytes) : Prop :=
  let commitment r c A := pt_add C (pt_mul C (c_ed_g C) r) (pt_mul C A c) in
  let h := kdf C 57 x1a
    (pt_encode (c_ed_g C) ++ le_bytes 57 (Z.abs_N (c_ed_q C))
     ++ pt_encode A1 ++ pt_encode A2 ++ pt_encode A3
     ++ pt_encode (commitment (rs_r1 sg) (rs_c1 sg) A1) ++ pt_encode (commitment (rs_r2 sg) (rs_c2 sg) A2)
     ++ pt_encode (commitment (rs_r3 sg) (rs_c3 sg) A3) ++ write_data m) in
  let sum := ((rs_c1 sg + rs_c2 sg + rs_c3 sg) mod c_ed_q C)%Z in
  (Z.of_N (le_val h) mod c_ed_q C)%Z = sum /\ sum <> 0%Z.

(* A validated profile and four keys in their groups. *)
Definition offer_ok (p : profile_payload) (cp : client_profile) (e1 : point) (d1 : N) (e2 : point) (d2 : N)
  : Prop :=
  payload_accepted C p cp /\ pt_verify C e1 = true /\ dh3_verify C d1 = true /\
  pt_verify C e2 = true /\ dh3_verify C d2 = true.

(* The key that results from an ECDH and a DH shared secret. *)
Definition mixed_key (ecdh : point) (dh : N) : bytes :=
  kdf2 C 64 x03 (pt_encode ecdh) (kdf C 32 x01 (biguint_to_bytes_be dh)).

(* The session that both parties derive from the secret shared through Y, B, X, A and the one shared
   through the first ratchet keys, in the role of the first sender or not. *)
Definition session_from (sel : selector) (k : bytes) (ecdh0 : ecdh_keypair) (dh0 : dh3_keypair)
    (other_ecdh0 : point) (other_dh0 : N) (now : N) (ssid : bytes) (r : double_ratchet) : Prop :=
  ssid = kdf C 8 x04 k /\
  exists shared, mixed_new C ecdh0 dh0 other_ecdh0 other_dh0 = Ok shared /\
    r = dr_initialize C sel shared (kdf C 64 x0b k) now.

(* What Bob has before him when Auth-R arrives, and Alice when Auth-I arrives. *)
Definition bob_view (w : awaiting_auth_r) (m : authr_msg) (bob alice : client_profile)
    (account contact : bytes) : dake_view :=
  mkView (write_payload (wr_payload w)) (write_payload (ar_profile m))
    (ec_public (wr_y w)) (ar_x m) (dh3_public (wr_b w)) (ar_a m) (cp_owner bob) (cp_owner alice)
    (ec_public (wr_ecdh0 w)) (dh3_public (wr_dh0 w)) (ar_ecdh0 m) (ar_dh0 m) account contact.
Definition alice_view (w : awaiting_auth_i) (bob alice : client_profile) (account contact : bytes) : dake_view :=
  mkView (write_payload (wi_profile_bob w)) (write_payload (wi_profile_alice w))
    (wi_y w) (wi_x w) (wi_b w) (wi_a w) (cp_owner bob) (cp_owner alice)
    (wi_ecdh0_other w) (wi_dh0_other w) (ec_public (wi_ecdh0 w)) (dh3_public (wi_dh0 w)) contact account.

(** ** One client going through any sequence of calls and messages *)

Inductive dake_run (h : dake_host) (account contact : bytes) : dake_state -> Prop :=
| dk_new : dake_run h account contact DakeInitial
| dk_initiate st rnd st' r :
    dake_run h account contact st -> dake_initiate C h rnd st = (st', r) -> r <> Panic ->
    dake_run h account contact st'
| dk_transfer st st' :
    dake_run h account contact st -> dake_transfer st = Ok st' -> dake_run h account contact st'
| dk_identity st rnd ring m st' r :
    dake_run h account contact st -> dake_handle_identity C h rnd ring st m account contact = (st', r) ->
    r <> Panic -> dake_run h account contact st'
| dk_auth_r st ring er dr now m st' r :
    dake_run h account contact st -> dake_handle_auth_r C h ring er dr now st m account contact = (st', r) ->
    r <> Panic -> dake_run h account contact st'
| dk_auth_i st now m st' r :
    dake_run h account contact st -> dake_handle_auth_i C now st m account contact = (st', r) ->
    r <> Panic -> dake_run h account contact st'.

(** ** Two clients *)

(* The host's profile decodes and validates, it names the identity key that the host holds the secret
   of, and both its keys are proper group elements. *)
Definition working_host (h : dake_host) (cp : client_profile) : Prop :=
  exists p,
    dh_profile h = write_payload p /\ payload_wire_ok C p /\ payload_accepted C p cp /\
    cp_identity cp = ed_public (dh_identity h) /\ (0 <= ed_secret (dh_identity h))%Z /\
    ed_public (dh_identity h) = pt_mul C (c_ed_g C) (ed_secret (dh_identity h)) /\
    pt_verify C (cp_identity cp) = true /\ pt_verify C (cp_forging cp) = true.

(* scalars as random_in_Zq produces them *)
Definition ring_rnd_ok (r : ring_rnd) : Prop :=
  let ok z := (0 <= z < c_ed_q C)%Z in
  ok (rr_t r) /\ ok (rr_c1 r) /\ ok (rr_c2 r) /\ ok (rr_c3 r) /\ ok (rr_r1 r) /\ ok (rr_r2 r) /\ ok (rr_r3 r).

(* The exceptional values that the other side must refuse: keys that generate no group (the neutral
   element and the like), and challenges that are zero. *)
Definition good_keys (e1 : point) (d1 : N) (e2 : point) (d2 : N) : Prop :=
  pt_verify C e1 = true /\ dh3_verify C d1 = true /\ pt_verify C e2 = true /\ dh3_verify C d2 = true.
Definition good_ring (sg : ring_sig) : Prop :=
  ((rs_c1 sg + rs_c2 sg + rs_c3 sg) mod c_ed_q C <> 0)%Z.

Definition profile_fingerprint (cp : client_profile) : bytes :=
  kdf2 C 56 x00 (pt_encode (cp_identity cp)) (pt_encode (cp_forging cp)).

(* Both sides end with the same session id, ratchets from which a conversation can start (C21), and
   each other's identity. *)
Definition dake_agree (alice bob : client_profile) (ma mb : dake_material) : Prop :=
  dm_ssid ma = dm_ssid mb /\
  start4 C (mkConv4 (dm_ratchet ma) (dm_ratchet mb) [] []) /\
  dm_us ma = profile_fingerprint alice /\ dm_them ma = profile_fingerprint bob /\
  dm_us mb = profile_fingerprint bob /\ dm_them mb = profile_fingerprint alice.

(* Alice answers: she is not in an exchange of her own that she prefers. *)
Definition answers4 (st : dake_state) (m : identity_msg) : Prop :=
  match st with
  | DakeAwaitingAuthR w =>
      be_val (shake256 C 32 (write_mpi (id_b (wr_identity w)))) <= be_val (shake256 C 32 (write_mpi (id_b m)))
  | _ => True
  end.

(* What a client does with a message of the exchange: the state afterwards, the replies, and the
   results of completed exchanges; an error is reported to the user and has no reply.  None: crash. *)
Record dake_coins : Type := mkCoins {
  co_rnd : dake_rnd; co_ring : ring_rnd; co_ecdh : bytes; co_dh : N; co_now : N }.
Definition dake_receive (h : dake_host) (account contact : bytes) (c : dake_coins) (st : dake_state)
    (m : encoded_type) : option (dake_state * list encoded_type * list dake_material) :=
  match m with
  | MIdentity m =>
      match dake_handle_identity C h (co_rnd c) (co_ring c) st m account contact with
      | (st', Ok (ReplyIdentity r)) => Some (st', [MIdentity r], [])
      | (st', Ok (ReplyAuthR r)) => Some (st', [MAuthR r], [])
      | (st', Err _) => Some (st', [], [])
      | (_, Panic) => None
      end
  | MAuthR m =>
      match dake_handle_auth_r C h (co_ring c) (co_ecdh c) (co_dh c) (co_now c) st m account contact with
      | (st', Ok (mat, i)) => Some (st', [MAuthI i], [mat])
      | (st', Err _) => Some (st', [], [])
      | (_, Panic) => None
      end
  | MAuthI m =>
      match dake_handle_auth_i C (co_now c) st m account contact with
      | (st', Ok mat) => Some (st', [], [mat])
      | (st', Err _) => Some (st', [], [])
      | (_, Panic) => None
      end
  | _ => Some (st, [], [])
  end.

(* Two clients, named a and b, and the messages under way, oldest first. *)
Record dake_net : Type := mkDakeNet {
  dn_a : dake_state; dn_b : dake_state;
  dn_ab : list encoded_type; dn_ba : list encoded_type;
  dn_done_a : list dake_material; dn_done_b : list dake_material }.

(* The network delivers the oldest message of a direction; nothing is lost or reordered. *)
Inductive dake_step (ha hb : dake_host) (na nb : bytes) : dake_net -> dake_net -> Prop :=
| ds_to_b s m r c st out done :
    dn_ab s = m :: r -> dake_receive hb nb na c (dn_b s) m = Some (st, out, done) ->
    dake_step ha hb na nb s
      (mkDakeNet (dn_a s) st r (dn_ba s ++ out) (dn_done_a s) (dn_done_b s ++ done))
| ds_to_a s m r c st out done :
    dn_ba s = m :: r -> dake_receive ha na nb c (dn_a s) m = Some (st, out, done) ->
    dake_step ha hb na nb s
      (mkDakeNet st (dn_b s) (dn_ab s ++ out) r (dn_done_a s ++ done) (dn_done_b s)).
Inductive dake_steps (ha hb : dake_host) (na nb : bytes) (s0 : dake_net) : dake_net -> Prop :=
| ds_refl : dake_steps ha hb na nb s0 s0
| ds_next s s' : dake_steps ha hb na nb s0 s -> dake_step ha hb na nb s s' -> dake_steps ha hb na nb s0 s'.

(* both sides have just called initiate *)
Definition both_initiated4 (ha hb : dake_host) (s : dake_net) : Prop :=
  exists ra rb ia ib,
    dake_initiate C ha ra DakeInitial = (dn_a s, Ok ia) /\
    dake_initiate C hb rb DakeInitial = (dn_b s, Ok ib) /\
    dn_ab s = [MIdentity ia] /\ dn_ba s = [MIdentity ib] /\ dn_done_a s = [] /\ dn_done_b s = [] /\
    be_val (shake256 C 32 (write_mpi (id_b ia))) <> be_val (shake256 C 32 (write_mpi (id_b ib))).

End WithCrypto.
