(* Vocabulary for the ways in which a call can crash the process (a panic of the code): what the peer can do,
   what the host does wrong, and what only chance brings about. *)
From Verif Require Import Base Types Crypto Encoding ClientProfile Messages Fragment KeyManager DataV3 Ratchet DataV4
  AKE DAKE SMP SMP4 Protocol Session Base64 SpecWire SpecCurve SpecData3 SpecData4 SpecSMP SpecSMP4 SpecDAKE SpecSession.
Local Open Scope N_scope.

(* the largest 32-bit number *)
Definition LAST32 : N := 4294967295.

Section WithCrypto.
Context (C : Crypto).

(* What the groups are supposed to be: the edwards curve, of odd order, and the two prime groups.  The 1536-bit
   group has at most 1536 bits. *)
Definition groups_sound : Prop :=
  smp4_group C /\ smp_group C /\ c_dh_p C < 2 ^ 1536 /\ 0 < c_dh3_g C.

(** ** Exceptional values *)

(* a hash that is zero as a number modulo the order of the curve *)
Definition zero_scalar (usage : byte) (data : bytes) : Prop :=
  (Z.of_N (le_val (kdf C 57 usage data)) mod c_ed_q C = 0)%Z.
(* random bytes from which no ECDH key pair is made, because a hash is all zero *)
Definition bad_seed (rnd : bytes) : Prop :=
  all_zero (shake256 C 57 rnd) = true \/
  exists k, random_in_Zq C rnd = Ok k /\
    all_zero (firstn 57 (shake256 C 114 (biguint_to_bytes_le (Z.abs_N k)))) = true.

(** ** Fragments *)

(* a part number or a number of parts above 65535 *)
Definition big_number (p : bytes) : Prop :=
  match_fragment p = true /\ parse_fragment p = Panic /\
  exists a n b, p = a ++ n ++ b /\ length n = 5%nat /\ forallb is_dec n = true /\ 65536 <= dec_num n.
(* a fragment that continues a message of 65535 parts, all of which have arrived, or a fragment after 2^32 - 1
   others *)
Definition assembler_full (a : assembler) (f : fragment) : Prop :=
  (fr_version f = V3 /\ fr_part f <> 1 /\ fr_total f = io_total (am_inorder a) /\ io_last (am_inorder a) = 65535)
  \/ (fr_version f = V4 /\ un_tick (am_unordered a) = LAST32).

(** ** Malformed messages *)

(* a query without versions; a whitespace tag without versions; an Auth-R or Auth-I message with an all-zero
   scalar *)
Definition malformed (b : bytes) : Prop :=
  bare_query b \/ bare_tag b \/
  exists buf t tags pre rest, b = OTR_ENCODED_PREFIX ++ buf ++ OTR_ENCODED_SUFFIX /\
    (t = OTR_AUTHR_TYPE_CODE \/ t = OTR_AUTHI_TYPE_CODE) /\ length tags = 8%nat /\
    b64_decode buf = Some ([x00; x04; t] ++ tags ++ pre ++ repeat x00 57 ++ rest).

(** ** OTRv3 data messages *)

(* Reading: the peer uses the client's own public key as its key; the key identifiers have come to their end; an
   authentic message announces the key zero. *)
Definition read3_peer (k : key_manager) (m : data3) (auth : bytes) : Prop :=
  (exists x, own_key3 k (d3_receiver_keyid m) x /\ peer_key3 k (d3_sender_keyid m) (dh_public x)) \/
  (kr_ack (km_ours k) = LAST32 /\ d3_receiver_keyid m <> LAST32) \/
  exists mk, authentic3 C k m auth mk /\ (d3_dh_y m = 0 \/ d3_sender_keyid m = LAST32).
(* a new key pair is needed and the random private key is zero *)
Definition read3_chance (k : key_manager) (m : data3) (auth : bytes) (rnd : N) : Prop :=
  (exists mk, authentic3 C k m auth mk) /\ d3_receiver_keyid m = kr_ack (km_ours k) + 1 /\ rnd = 0.

(* Sending: all 2^64 - 1 counter values are used up, or the key identifiers; the peer's key is the own public
   key. *)
Definition seal3_peer (k : key_manager) : Prop :=
  km_our_ctr k = repeat xff 8 \/ kr_ack (km_ours k) = LAST32 \/
  dh_public (kr_slot (km_ours k) (own_id k)) = pr_slot (km_theirs k) (peer_id k).
(* The keys for a message from the own key pair x to the peer's key y. *)
Definition send_keys (x : dh_keypair) (y : N) (enc_key mac_key : bytes) : Prop :=
  let shared := write_mpi (modpow y (dh_private x) (c_dh_p C)) in
  let which := if y <? dh_public x then x01 else x02 in
  dh_public x <> y /\ enc_key = firstn 16 (sha1 C (which :: shared)) /\ mac_key = sha1 C enc_key.
(* The ciphertext is all zero (an empty one is), or the authenticator, or the MAC keys to be revealed. *)
Definition seal3_chance (our their : N) (k : key_manager) (ignore : bool) (text : bytes) : Prop :=
  (km_old_macs k <> [] /\ all_zero (km_old_macs k) = true) \/
  exists enc_key mac_key ctr,
    send_keys (kr_slot (km_ours k) (own_id k)) (pr_slot (km_theirs k) (peer_id k)) enc_key mac_key /\
    length ctr = 8%nat /\ be_val ctr = be_val (km_our_ctr k) + 1 /\
    let enc := aes_crypt C enc_key (ctr ++ repeat x00 8) text in
    let m := mkData3 ignore (own_id k) (peer_id k) (dh_public (kr_slot (km_ours k) (own_id k + 1))) ctr enc [] [] in
    all_zero enc = true \/ all_zero (hmac_sha1 C mac_key (encode_authenticator_data our their m)) = true.

(** ** OTRv4 data messages *)

(* Reading: an all-zero authenticator; all 2^32 - 1 ratchets are used up; an authentic message with the last
   possible number. *)
Definition read4_peer (d : double_ratchet) (m : data4) (auth : bytes) : Prop :=
  all_zero (d4_authenticator m) = true \/
  (d4_i m = dr_i d /\ dr_i d = LAST32) \/
  exists mk, authentic4 C d m auth mk /\ d4_j m = LAST32.
(* a key from which others are to be derived is all zero *)
Definition read4_chance (d : double_ratchet) (m : data4) : Prop :=
  (dr_i d mod 3 <> 0 /\ all_zero (mx_brace_key (dr_shared d)) = true) \/
  exists ck, reads_with4 C d m ck /\ all_zero ck = true.

(* Sending: all ratchets are used up, or all numbers in the ratchet. *)
Definition seal4_peer (d : double_ratchet) : Prop :=
  (dr_next d = SENDER /\ dr_i d = LAST32) \/ (dr_next d = RECEIVER /\ ra_message_id (dr_sender d) = LAST32).
(* the ratchet with which the next message is sent *)
Definition sending4 (d : double_ratchet) (rnd : send_rnd) (d1 : double_ratchet) : Prop :=
  (dr_next d = RECEIVER /\ d1 = d) \/
  (dr_next d = SENDER /\
   dr_rotate_sender C (fst (dr_collect_reveals d)) (sr_ecdh rnd) (sr_dh rnd) (sr_now rnd) = Ok d1).
(* No new key pair can be made; the own public keys are no proper group elements; a key or the authenticator is
   all zero. *)
Definition seal4_chance (our their : N) (d : double_ratchet) (ignore : bool) (text : bytes) (rnd : send_rnd) : Prop :=
  (dr_next d = SENDER /\
   (bad_seed (sr_ecdh rnd) \/ (dr_i d mod 3 <> 0 /\ all_zero (mx_brace_key (dr_shared d)) = true))) \/
  exists d1, sending4 d rnd d1 /\
    let ck := ra_chain_key (dr_sender d1) in
    let own := mx_ecdh (dr_shared d1) in let own_dh := mx_dh (dr_shared d1) in
    let i := dr_i d1 - 1 in
    let m := mkData4 ignore (dr_pn d1) i (ra_message_id (dr_sender d1)) (ec_public own)
               (if i mod 3 =? 0 then Some (dh3_public own_dh) else None)
               (chacha_crypt C (firstn 32 (enc_key4 C ck)) text) [] [] in
    all_zero ck = true \/ pt_verify C (ec_public own) = false \/
    (i mod 3 = 0 /\ dh3_verify C (dh3_public own_dh) = false) \/
    all_zero (kdf2 C 64 USAGE_AUTHENTICATOR (mac_key4 C ck) (encode_authenticator_data4 our their m)) = true.

(** ** The Socialist Millionaire Protocol of OTRv4 *)

Local Notation G := (c_ed_g C).
Local Infix "+p" := (pt_add C) (at level 50, left associativity).
Local Infix "*p" := (pt_mul C) (at level 40, left associativity).

(* the record holds a scalar that is zero modulo the group order *)
Definition smp4_peer (t : tlv) : Prop :=
  exists pre enc post, tlv_value t = pre ++ enc ++ post /\ length enc = 57%nat /\
    (Z.of_N (le_val enc) mod c_ed_q C = 0)%Z.

(* What is hashed, and for which usage, while the record is handled: the commitments of the proofs in it and of the
   proofs in the reply, and the user's secret. *)
Definition smp4_hashes (answer : bytes -> option bytes) (rnd : smp4_rnd) (c : smp4_context) (t : tlv)
    (usage : byte) (data : bytes) : Prop :=
  let pair a b := pt_encode a ++ pt_encode b in
  match s4_state c with
  | Expect4_1 => exists question rest G2a c2 d2 G3a c3 d3,
      read_data (tlv_value t) = Ok (question, rest) /\
      read_items C [true; false; false; true; false; false] rest
        = Ok ([Pt G2a; Sc c2; Sc d2; Pt G3a; Sc c3; Sc d3], []) /\
      (In (usage, data) [(x01, pt_encode (G *p d2 +p G2a *p c2)); (x02, pt_encode (G *p d3 +p G3a *p c3))] \/
       exists secret, answer question = Some secret /\
         let G2 := G2a *p s4_2 rnd in let G3 := G3a *p s4_3 rnd in
         In (usage, data)
           [(x03, pt_encode (G *p s4_r2 rnd)); (x04, pt_encode (G *p s4_r3 rnd));
            (x19, x01 :: s4_them c ++ s4_us c ++ s4_ssid c ++ write_data secret);
            (x05, pair (G3 *p s4_r5 rnd) (G *p s4_r5 rnd +p G2 *p s4_r6 rnd))])
  | Expect4_2 x a2 a3 => exists G2b c2 d2 G3b c3 d3 Pb Qb cp d5 d6,
      read_items C [true; false; false; true; false; false; true; true; false; false; false] (tlv_value t)
        = Ok ([Pt G2b; Sc c2; Sc d2; Pt G3b; Sc c3; Sc d3; Pt Pb; Pt Qb; Sc cp; Sc d5; Sc d6], []) /\
      let G2 := G2b *p a2 in let G3 := G3b *p a3 in
      let DQ := (G *p s4_r4 rnd +p G2 *p (x mod c_ed_q C)) +p pt_neg C Qb in
      In (usage, data)
        [(x03, pt_encode (G *p d2 +p G2b *p c2)); (x04, pt_encode (G *p d3 +p G3b *p c3));
         (x05, pair (G3 *p d5 +p Pb *p cp) (G *p d5 +p G2 *p d6 +p Qb *p cp));
         (x06, pair (G3 *p s4_r5 rnd) (G *p s4_r5 rnd +p G2 *p s4_r6 rnd));
         (x07, pair (G *p s4_r7 rnd) (DQ *p s4_r7 rnd))]
  | Expect4_3 G3a G2 G3 b3 Pb Qb => exists Pa Qa cp d5 d6 Ra cr d7,
      read_items C [true; true; false; false; false; true; false; false] (tlv_value t)
        = Ok ([Pt Pa; Pt Qa; Sc cp; Sc d5; Sc d6; Pt Ra; Sc cr; Sc d7], []) /\
      let DQ := Qa +p pt_neg C Qb in
      In (usage, data)
        [(x06, pair (G3 *p d5 +p Pa *p cp) (G *p d5 +p G2 *p d6 +p Qa *p cp));
         (x07, pair (G *p d7 +p G3a *p cr) (DQ *p d7 +p Ra *p cr));
         (x08, pair (G *p s4_r7 rnd) (DQ *p s4_r7 rnd))]
  | Expect4_4 G3b DP DQ a3 => exists Rb cr d7,
      read_items C [true; false; false] (tlv_value t) = Ok ([Pt Rb; Sc cr; Sc d7], []) /\
      In (usage, data) [(x08, pair (G *p d7 +p G3b *p cr) (DQ *p d7 +p Rb *p cr))]
  end.
Definition smp4_chance (answer : bytes -> option bytes) (rnd : smp4_rnd) (c : smp4_context) (t : tlv) : Prop :=
  exists usage data, smp4_hashes answer rnd c t usage data /\ zero_scalar usage data.

(** ** Ring signatures *)

(* what is hashed for a ring signature of m with the commitments T1, T2, T3 *)
Definition ring_text (A1 A2 A3 T1 T2 T3 : point) (m : bytes) : bytes :=
  pt_encode G ++ le_bytes 57 (Z.abs_N (c_ed_q C)) ++ pt_encode A1 ++ pt_encode A2 ++ pt_encode A3
  ++ pt_encode T1 ++ pt_encode T2 ++ pt_encode T3 ++ write_data m.
(* Signing needs a ring in which the own public key occurs precisely once.  Keys are compared by their encoding. *)
Definition in_ring (own : point) (ring : list point) : list point :=
  filter (fun A => bytes_eqb (pt_encode own) (pt_encode A)) ring.
Definition sign_peer (kp : eddsa_keypair) (A1 A2 A3 : point) : Prop :=
  length (in_ring (ed_public kp) [A1; A2; A3]) <> 1%nat.
Definition sign_chance (kp : eddsa_keypair) (A1 A2 A3 : point) (m : bytes) (r : ring_rnd) : Prop :=
  let commit A rr cc := if bytes_eqb (pt_encode (ed_public kp)) (pt_encode A) then G *p rr_t r else G *p rr +p A *p cc in
  zero_scalar USAGE_AUTH (ring_text A1 A2 A3 (commit A1 (rr_r1 r) (rr_c1 r)) (commit A2 (rr_r2 r) (rr_c2 r))
                            (commit A3 (rr_r3 r) (rr_c3 r)) m).
(* Checking: the three challenges of the signature add up to zero, or the hash is zero. *)
Definition ring_peer (sg : ring_sig) : Prop :=
  ((rs_c1 sg + rs_c2 sg + rs_c3 sg) mod c_ed_q C = 0)%Z.
Definition ring_chance (sg : ring_sig) (A1 A2 A3 : point) (m : bytes) : Prop :=
  zero_scalar USAGE_AUTH (ring_text A1 A2 A3 (G *p rs_r1 sg +p A1 *p rs_c1 sg) (G *p rs_r2 sg +p A2 *p rs_c2 sg)
                            (G *p rs_r3 sg +p A3 *p rs_c3 sg) m).

(** ** Key exchanges *)

(* the end of an OTRv3 exchange with the own key pair: an OTRv4 session is going on *)
Definition start3_peer (st : pstate) : Prop := exists our their d smp, st = PEnc4 our their d smp.
(* the own key pair of the exchange is not proper, or a random private key is zero *)
Definition start3_chance (e : env) (our : dh_keypair) : Prop :=
  dh_verify_public_key C (dh_public our) = false \/ ev_km0 e = 0 \/ ev_km1 e = 0.

(* An Identity message with a good profile and good keys, which the client answers: the ring of the answer has
   the forging key of the profile, the own identity key, and the key Y of the message. *)
Definition identity_peer (e : env) (st : dake_state) (m : identity_msg) : Prop :=
  exists bob, offer_ok C (id_profile m) bob (id_y m) (id_b m) (id_ecdh0 m) (id_dh0 m) /\ answers4 C st m /\
    sign_peer (ev_identity e) (cp_forging bob) (ed_public (ev_identity e)) (id_y m).
Definition identity_chance (e : env) (d : details) (st : dake_state) (m : identity_msg) : Prop :=
  exists bob, offer_ok C (id_profile m) bob (id_y m) (id_b m) (id_ecdh0 m) (id_dh0 m) /\ answers4 C st m /\
    (bad_seed (dn_ecdh (ev_dake e)) \/ bad_seed (dn_ecdh0 (ev_dake e)) \/
     exists own alice x ecdh0, let a := dh3_generate C (dn_dh (ev_dake e)) in
       let dh0 := dh3_generate C (dn_dh0 (ev_dake e)) in
       decode_profile C (ev_profile e) = Ok own /\ payload_accepted C own alice /\
       ecdh_generate C (dn_ecdh (ev_dake e)) = Ok x /\ ecdh_generate C (dn_ecdh0 (ev_dake e)) = Ok ecdh0 /\
       sign_chance (ev_identity e) (cp_forging bob) (ed_public (ev_identity e)) (id_y m)
         (auth_r_text C (mkView (write_payload (id_profile m)) (ev_profile e) (id_y m) (ec_public x) (id_b m)
            (dh3_public a) (cp_owner bob) (cp_owner alice) (id_ecdh0 m) (id_dh0 m) (ec_public ecdh0) (dh3_public dh0)
            (de_address d) (de_account d)))
         (ev_ring e)).

(* An Auth-R message for an exchange with the own profile bob, with a good profile alice and good keys *)
Definition authr_offer (w : awaiting_auth_r) (m : authr_msg) (bob alice : client_profile) : Prop :=
  offer_ok C (ar_profile m) alice (ar_x m) (ar_a m) (ar_ecdh0 m) (ar_dh0 m) /\ payload_accepted C (wr_payload w) bob.
(* The own view of the exchange is signed, with the ring of the own identity key, the forging key of the other
   profile, and the key X of the message. *)
Definition authr_peer (e : env) (d : details) (w : awaiting_auth_r) (m : authr_msg) : Prop :=
  exists bob alice, authr_offer w m bob alice /\
    (ring_peer (ar_sigma m) \/
     ring_valid C (ar_sigma m) (cp_forging bob) (cp_identity alice) (ec_public (wr_y w))
       (auth_r_text C (bob_view w m bob alice (de_account d) (de_address d))) /\
     sign_peer (ev_identity e) (ed_public (ev_identity e)) (cp_forging alice) (ar_x m)).
Definition authr_chance (e : env) (d : details) (w : awaiting_auth_r) (m : authr_msg) : Prop :=
  exists bob alice, authr_offer w m bob alice /\
    let v := bob_view w m bob alice (de_account d) (de_address d) in
    (ring_chance (ar_sigma m) (cp_forging bob) (cp_identity alice) (ec_public (wr_y w)) (auth_r_text C v) \/
     sign_chance (ev_identity e) (ed_public (ev_identity e)) (cp_forging alice) (ar_x m) (auth_i_text C v) (ev_ring e) \/
     bad_seed (sr_ecdh (ev_send e))).
Definition authi_chance (d : details) (w : awaiting_auth_i) (m : authi_msg) : Prop :=
  exists bob alice, payload_accepted C (wi_profile_bob w) bob /\ payload_accepted C (wi_profile_alice w) alice /\
    ring_chance (ai_sigma m) (cp_identity bob) (cp_forging alice) (wi_x w)
      (auth_i_text C (alice_view w bob alice (de_account d) (de_address d))).
(* the exchange for which an Auth-R message of client t is taken: the unaddressed one or the one with t *)
Definition awaits_auth_r (s : session) (t : N) (w : awaiting_auth_r) : Prop :=
  in_dake (entry 0 (se_instances s)) = DakeAwaitingAuthR w \/ in_dake (entry t (se_instances s)) = DakeAwaitingAuthR w.

(** ** Messages *)

(* The SMP record in the data message em, which is read as the given text. *)
Definition smp_in_text (v : version) (text : bytes) (record : tlv) : Prop :=
  exists content tlvs, shows text content tlvs /\ filter (smp_record v) tlvs = [record].

(* What the peer does: the session s, whose host is described by e, cannot handle the encoded message em. *)
Definition message_peer (e : env) (s : session) (em : encoded_message) : Prop :=
  let t := em_sender em in
  let i := entry t (se_instances s) in
  match em_version em, em_message em with
  | V3, MRevealSig m =>
      start3_peer (in_state i) /\
      exists our enc hash mat reply, in_ake i = AkeAwaitingRevealSig our enc hash /\
        reveal_result C (ev_dsa e) (ev_nonce e) our enc hash m = Ok (mat, reply)
  | V3, MSignature m =>
      start3_peer (in_state i) /\
      exists our gy sh previous mat, in_ake i = AkeAwaitingSig our gy sh previous /\
        signature_result C our gy sh m = Ok mat
  | V3, MData m =>
      exists our their k smp, in_state i = PEnc3 our their k smp /\
        let auth := encode_authenticator_data t (em_receiver em) m in
        (read3_peer k m auth \/
         exists k' text record smp' reply, decrypt3 C k m auth (ev_ack e) = (k', Ok text) /\ smp_in_text V3 text record /\
           smp_handle C (ev_smp_host e) (ev_smp e) smp record = (smp', Ok (Some reply)) /\ seal3_peer k')
  | V4, MIdentity m => identity_peer e (in_dake i) m
  | V4, MAuthR m => exists w, awaits_auth_r s t w /\ authr_peer e (se_details s) w m
  | V4, MAuthI m => exists w, in_dake i = DakeAwaitingAuthI w /\ ring_peer (ai_sigma m)
  | V4, MData4 m =>
      all_zero (d4_authenticator m) = true \/
      exists our their d smp, in_state i = PEnc4 our their d smp /\
        let auth := encode_authenticator_data4 t (em_receiver em) m in
        (read4_peer d m auth \/
         exists d' text record, decrypt4 C d m auth (ev_now e) = (d', Ok text) /\ smp_in_text V4 text record /\
           (smp4_peer record \/
            exists smp' reply, smp4_handle C (ev_answer e) (ev_smp4 e) smp record = (smp', Ok (Some reply)) /\
              seal4_peer d'))
  | _, _ => False
  end.
(* What happens by chance. *)
Definition message_chance (e : env) (s : session) (em : encoded_message) : Prop :=
  let t := em_sender em in
  let i := entry t (se_instances s) in
  match em_version em, em_message em with
  | V3, MDHCommit _ => ev_dh e = 0
  | V3, MRevealSig m =>
      exists our enc hash, in_ake i = AkeAwaitingRevealSig our enc hash /\ start3_chance e our
  | V3, MSignature m =>
      exists our gy sh previous, in_ake i = AkeAwaitingSig our gy sh previous /\ start3_chance e our
  | V3, MData m =>
      exists our their k smp, in_state i = PEnc3 our their k smp /\
        let auth := encode_authenticator_data t (em_receiver em) m in
        (read3_chance k m auth (ev_ack e) \/
         exists k' text record smp' reply, decrypt3 C k m auth (ev_ack e) = (k', Ok text) /\ smp_in_text V3 text record /\
           smp_handle C (ev_smp_host e) (ev_smp e) smp record = (smp', Ok (Some reply)) /\
           seal3_chance our their k' true (x00 :: tlv_bytes reply))
  | V4, MIdentity m => identity_chance e (se_details s) (in_dake i) m
  | V4, MAuthR m => exists w, awaits_auth_r s t w /\ authr_chance e (se_details s) w m
  | V4, MAuthI m => exists w, in_dake i = DakeAwaitingAuthI w /\ authi_chance (se_details s) w m
  | V4, MData4 m =>
      exists our their d smp, in_state i = PEnc4 our their d smp /\
        let auth := encode_authenticator_data4 t (em_receiver em) m in
        (read4_chance d m \/
         exists d' text record, decrypt4 C d m auth (ev_now e) = (d', Ok text) /\ smp_in_text V4 text record /\
           (smp4_chance (ev_answer e) (ev_smp4 e) smp record \/
            exists smp' reply, smp4_handle C (ev_answer e) (ev_smp4 e) smp record = (smp', Ok (Some reply)) /\
              seal4_chance our their d' true (x00 :: tlv_bytes reply) (ev_send e)))
  | _, _ => False
  end.

(** ** Calls *)

(* The host's limit for the size of messages is too small for b: no room for the header of a fragment, or more
   than 65535 fragments. *)
Definition unsendable (e : env) (b : bytes) : Prop :=
  (ev_message_size e < length b)%nat /\
  exists header, (header = 36%nat \/ header = 45%nat) /\
    ((ev_message_size e <= header)%nat \/
     65535 * N.of_nat (ev_message_size e - header) < N.of_nat (length b)).
Definition with_size (e : env) (n : nat) : env :=
  mkEnv n (ev_dsa e) (ev_profile e) (ev_identity e) (ev_answer e) (ev_dh e) (ev_r e) (ev_nonce e) (ev_km0 e) (ev_km1 e)
    (ev_ack e) (ev_dake e) (ev_ring e) (ev_send e) (ev_smp e) (ev_smp4 e) (ev_fragment e).

(* The payload p crashes the session: what the peer does, *)
Definition peer_crashes (e : env) (s : session) (p : bytes) : Prop :=
  big_number p \/
  (exists f, match_fragment p = true /\ parse_fragment p = Ok (Some f) /\ verify_fragment f = true /\
     (fr_receiver f = 0 \/ fr_receiver f = de_tag (se_details s)) /\
     assembler_full (in_assembler (entry (fr_sender f) (se_instances s))) f) \/
  (exists b, completes s p b /\ malformed b) \/
  (exists em, carries C s p em /\ message_peer e s em).
(* chance: also if a query or a tag is answered, *)
Definition chance_crashes (e : env) (s : session) (p : bytes) : Prop :=
  (exists em, carries C s p em /\ message_chance e s em) \/
  (exists b vs, completes s p b /\ (parse C b = Ok (MsgQuery vs) \/ exists t, parse C b = Ok (MsgTagged vs t)) /\
     ((contains_version V3 vs = true /\ ev_dh e = 0) \/
      (contains_version V4 vs = true /\
       (bad_seed (dn_ecdh (ev_dake e)) \/ bad_seed (dn_ecdh0 (ev_dake e)))))).
(* the host: a reply cannot be carried, or there is no DSA key where one is needed. *)
Definition host_crashes (e : env) (s : session) (p : bytes) : Prop :=
  (exists b, unsendable e b /\ snd (fst (receive C (with_size e (length b)) s p)) = [b]) \/
  (ev_dsa e = None /\ exists em, carries C s p em /\ em_version em = V3 /\
     match em_message em with MDHKey _ | MRevealSig _ | MData _ => True | _ => False end).

End WithCrypto.
