(* Vocabulary for what an authenticator or a signature is about. *)
From Verif Require Import Base Types Crypto Encoding ClientProfile Messages KeyManager Ratchet DataV3 DataV4 Protocol Session SpecWire SpecData3 SpecData4 SpecSession SpecDAKE SpecOrigin.
Local Open Scope N_scope.

(* Two different arguments with the same value under a hash function f.  (Such arguments exist for every hash function;
   the theorems below name those which somebody must have found.) *)
Definition clash {A B} (f : A -> B) (x y : A) : Prop := x <> y /\ f x = f y.

Section WithCrypto.
Context (C : Crypto).

(* What is hashed in a ring signature, and the challenge that results. *)
Definition ring_text (sg : ring_sig) (A1 A2 A3 : point) (m : bytes) : bytes :=
  let commitment r c A := pt_add C (pt_mul C (c_ed_g C) r) (pt_mul C A c) in
  pt_encode (c_ed_g C) ++ le_bytes 57 (Z.abs_N (c_ed_q C)) ++ pt_encode A1 ++ pt_encode A2 ++ pt_encode A3
  ++ pt_encode (commitment (rs_r1 sg) (rs_c1 sg) A1) ++ pt_encode (commitment (rs_r2 sg) (rs_c2 sg) A2)
  ++ pt_encode (commitment (rs_r3 sg) (rs_c3 sg) A3) ++ write_data m.
Definition challenge (text : bytes) : Z := (Z.of_N (le_val (kdf C 57 x1a text)) mod c_ed_q C)%Z.

(* The contexts in the signed texts of Auth-R and Auth-I. *)
Definition phi_r (v : dake_view) : bytes :=
  write_u32 (vw_alice_tag v) ++ write_u32 (vw_bob_tag v) ++ half_phi (vw_alice_ecdh0 v) (vw_alice_dh0 v)
  ++ half_phi (vw_bob_ecdh0 v) (vw_bob_dh0 v) ++ write_data (vw_alice_name v) ++ write_data (vw_bob_name v).
Definition phi_i (v : dake_view) : bytes :=
  write_u32 (vw_bob_tag v) ++ write_u32 (vw_alice_tag v) ++ half_phi (vw_bob_ecdh0 v) (vw_bob_dh0 v)
  ++ half_phi (vw_alice_ecdh0 v) (vw_alice_dh0 v) ++ write_data (vw_bob_name v) ++ write_data (vw_alice_name v).
(* Somebody found a clash in one of the hashes of two Auth-R messages, or two Auth-I messages, with the signature sg. *)
Definition broken_r (sg : ring_sig) (bob alice : client_profile) (v : dake_view) (bob' alice' : client_profile) (v' : dake_view) : Prop :=
  clash (kdf C 64 x05) (vw_bob v) (vw_bob v') \/ clash (kdf C 64 x06) (vw_alice v) (vw_alice v') \/ clash (kdf C 64 x07) (phi_r v) (phi_r v') \/
  clash challenge (ring_text sg (cp_forging bob) (cp_identity alice) (vw_y v) (auth_r_text C v))
                  (ring_text sg (cp_forging bob') (cp_identity alice') (vw_y v') (auth_r_text C v')).
Definition broken_i (sg : ring_sig) (bob alice : client_profile) (v : dake_view) (bob' alice' : client_profile) (v' : dake_view) : Prop :=
  clash (kdf C 64 x08) (vw_bob v) (vw_bob v') \/ clash (kdf C 64 x09) (vw_alice v) (vw_alice v') \/ clash (kdf C 64 x0a) (phi_i v) (phi_i v') \/
  clash challenge (ring_text sg (cp_identity bob) (cp_forging alice) (vw_x v) (auth_i_text C v))
                  (ring_text sg (cp_identity bob') (cp_forging alice') (vw_x v') (auth_i_text C v')).
(* The profiles in the messages i and m are those of bob and alice. *)
Definition profiles (i : identity_msg) (m : authr_msg) (bob alice : client_profile) : Prop :=
  payload_accepted C (id_profile i) bob /\ payload_accepted C (ar_profile m) alice.

(* The same exchange: equal profiles, equal keys (points are compared by their encoding), equal names. *)
Definition same_exchange (i : identity_msg) (m : authr_msg) (i' : identity_msg) (m' : authr_msg) : Prop :=
  write_payload (id_profile i) = write_payload (id_profile i') /\ write_payload (ar_profile m) = write_payload (ar_profile m') /\
  pt_encode (id_y i) = pt_encode (id_y i') /\ pt_encode (ar_x m) = pt_encode (ar_x m') /\ id_b i = id_b i' /\ ar_a m = ar_a m' /\
  pt_encode (id_ecdh0 i) = pt_encode (id_ecdh0 i') /\ id_dh0 i = id_dh0 i' /\
  pt_encode (ar_ecdh0 m) = pt_encode (ar_ecdh0 m') /\ ar_dh0 m = ar_dh0 m'.
Definition same_names (d d' : details) : Prop := de_account d = de_account d' /\ de_address d = de_address d'.

(* The message em, which arrives after the calls h, makes the session of d report a conversation with t. *)
Definition begun (d : details) (h : list event) (em : encoded_message) (t : N) : Prop :=
  exists s es p s' out, history C d h s /\ carries C s p em /\
    call C es s (OpReceive p) = (s', out, Ok (AnMessage (UMSessionStarted t))).
(* A payload that carries the message em tells the user of d something that only the other client of the conversation
   with t, which is then in the state st, can say: a text, the end, a result of the Socialist Millionaire Protocol. *)
Definition delivered (d : details) (st : pstate) (em : encoded_message) (t : N) : Prop :=
  exists h s e p s' out r, history C d h s /\ st = state_of s t /\ carries C s p em /\ receive C e s p = (s', out, r) /\
    ((exists c tlvs, r = Ok (UMConfidential t c tlvs)) \/ (exists c, r = Ok (UMSessionFinished t c))
     \/ r = Ok (UMSmpSucceeded t) \/ r = Ok (UMSmpFailed t)).
(* the MAC key for the message in that state *)
Definition mac_key_of (st : pstate) (em : encoded_message) (key : bytes) : Prop :=
  match st, em_message em with
  | PEnc3 _ _ k _, MData m => exists x y enc_key, own_key3 k (d3_receiver_keyid m) x /\ peer_key3 k (d3_sender_keyid m) y /\
      recv_keys3 C x y enc_key key
  | PEnc4 _ _ r _, MData4 m => exists ck, reads_with4 C r m ck /\ key = mac_key4 C ck
  | _, _ => False
  end.
(* two data messages are equal, except for their authenticators and the old MAC keys in them *)
Definition same_header (em em' : encoded_message) : Prop := em_sender em = em_sender em' /\ em_receiver em = em_receiver em'.
Definition same_data3 (m m' : data3) : Prop :=
  d3_ignore_unreadable m = d3_ignore_unreadable m' /\ d3_sender_keyid m = d3_sender_keyid m' /\ d3_receiver_keyid m = d3_receiver_keyid m' /\
  d3_dh_y m = d3_dh_y m' /\ d3_ctr m = d3_ctr m' /\ d3_encrypted m = d3_encrypted m'.
Definition same_data4 (m m' : data4) : Prop :=
  d4_ignore_unreadable m = d4_ignore_unreadable m' /\ d4_pn m = d4_pn m' /\ d4_i m = d4_i m' /\ d4_j m = d4_j m' /\
  pt_encode (d4_ecdh m) = pt_encode (d4_ecdh m') /\ d4_dh m = d4_dh m' /\ d4_encrypted m = d4_encrypted m'.
(* the names can be written in a message *)
Definition names_fit (d : details) : Prop := fits32 (de_account d) /\ fits32 (de_address d).
End WithCrypto.
