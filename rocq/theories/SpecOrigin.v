(* Vocabulary for the origin of private conversations: which messages of a session's history lead to one, and what they
   prove. *)
From Verif Require Import Base Types Crypto Encoding ClientProfile Messages Fragment KeyManager DataV3 Ratchet DataV4
  AKE DAKE SMP SMP4 Protocol Session SpecAKE SpecDAKE SpecWire SpecSession.
Local Open Scope N_scope.

Section WithCrypto.
Context (C : Crypto) (d : details).

(* In one of the calls h the session sent m to client t; or to t or all clients. *)
Definition has_sent (h : list event) (t : N) (v : version) (m : encoded_type) : Prop :=
  exists ev e, In ev h /\ transported d e t v m (ev_injected ev).
Definition has_offered (h : list event) (t : N) (v : version) (m : encoded_type) : Prop :=
  has_sent h t v m \/ has_sent h 0 v m.
(* In one of the calls h the session received m from client t. *)
Definition has_got (h : list event) (t : N) (v : version) (m : encoded_type) : Prop :=
  exists h1 s1 ev h2 p em, h = h1 ++ ev :: h2 /\ history C d h1 s1 /\ ev_op ev = OpReceive p /\ carries C s1 p em /\
    em_sender em = t /\ em_version em = v /\ em_message em = m.

(** ** OTRv3 *)

(* The private conversation with t that begins with the own secret key x, the peer's key gy and the peer's DSA key pk.
   Both sides number their first key 1. *)
Definition begins3 (t : N) (x gy : N) (pk : dsa_pub) (ssid : bytes) (st : pstate) : Prop :=
  exists k r0 r1, km_new C 1 (mkDh x (modpow (c_dh_g C) x (c_dh_p C))) 1 gy r0 r1 = Ok k /\
    st = PEnc3 (de_tag d) t k (smp_new ssid (otr3_fingerprint C pk)).

(* em, from t, completes an exchange in which this session, in the calls h, received a commitment from t and answered it
   with its key: em opens the commitment to gx, and proves that the owner of pk takes part in the exchange of gx and the
   own key. *)
Definition answered3 (h : list event) (t : N) (em : encoded_message) (st : pstate) : Prop :=
  exists c y m gx more rest pk,
    em_message em = MRevealSig m /\ has_got h t V3 (MDHCommit c) /\
    let gy := modpow (c_dh_g C) y (c_dh_p C) in
    has_sent h t V3 (MDHKey (mkDHKey gy)) /\
    let gxmpi := aes_crypt C (rv_key m) (repeat x00 16) (dc_gx_encrypted c) in
    sha256 C gxmpi = dc_gx_hashed c /\ read_mpi gxmpi = Ok (gx, more) /\ dh_public_ok C gx /\
    let s := modpow gx y (c_dh_p C) in
    identity_proof3 C false s gx gy pk (rv_signature_encrypted m) (rv_signature_mac m) rest /\
    begins3 t y gx pk (firstn 8 (derived3 C x00 s)) st.
(* em, from t, completes an exchange in which this session, in the calls h, sent a commitment to its key, received a key
   from t and revealed the own one to t: em proves that the owner of pk takes part in the exchange of these keys. *)
Definition revealed3 (h : list event) (t : N) (em : encoded_message) (st : pstate) : Prop :=
  exists x r gy rv m pk,
    em_message em = MSignature m /\
    let gx := modpow (c_dh_g C) x (c_dh_p C) in
    has_offered h t V3 (MDHCommit (mkDHCommit (aes_crypt C r (repeat x00 16) (write_mpi gx)) (sha256 C (write_mpi gx)))) /\
    has_got h t V3 (MDHKey (mkDHKey gy)) /\ has_sent h t V3 (MRevealSig rv) /\ rv_key rv = r /\ dh_public_ok C gy /\
    let s := modpow gy x (c_dh_p C) in
    identity_proof3 C true s gy gx pk (sg_signature_encrypted m) (sg_signature_mac m) [] /\
    begins3 t x gy pk (firstn 8 (derived3 C x00 s)) st.

(** ** OTRv4 *)

(* What is signed about the Identity message i and the Auth-R message m, whose profiles are bob and alice. *)
Definition message_view (i : identity_msg) (m : authr_msg) (bob alice : client_profile) (bob_name alice_name : bytes)
  : dake_view :=
  mkView (write_payload (id_profile i)) (write_payload (ar_profile m))
    (id_y i) (ar_x m) (id_b i) (ar_a m) (cp_owner bob) (cp_owner alice)
    (id_ecdh0 i) (id_dh0 i) (ar_ecdh0 m) (ar_dh0 m) bob_name alice_name.

(* The public keys for secrets. *)
Definition ec_key (x : Z) : point := pt_mul C (c_ed_g C) x.
Definition dh3_key (a : N) : N := modpow (c_dh3_g C) a (c_dh3_p C).

(* em, from t, completes an exchange in which this session, in the calls h, offered an Identity message: em is signed by
   the owner of the identity key in its profile (or, as a forgery, by the owner of the own forging or ephemeral key), for
   exactly this Identity message and the names of the two users. *)
Definition identified4 (h : list event) (t : N) (em : encoded_message) (st : pstate) : Prop :=
  exists i m bob alice y b e0 d0 now r0 er dr r,
    em_message em = MAuthR m /\ has_offered h t V4 (MIdentity i) /\
    id_y i = ec_key y /\ id_b i = dh3_key b /\ id_ecdh0 i = ec_key e0 /\ id_dh0 i = dh3_key d0 /\
    payload_accepted C (id_profile i) bob /\
    offer_ok C (ar_profile m) alice (ar_x m) (ar_a m) (ar_ecdh0 m) (ar_dh0 m) /\
    ring_valid C (ar_sigma m) (cp_forging bob) (cp_identity alice) (id_y i)
      (auth_r_text C (message_view i m bob alice (de_account d) (de_address d))) /\
    let key := mixed_key C (pt_mul C (ar_x m) y) (modpow (ar_a m) b (c_dh3_p C)) in
    session_from C RECEIVER key (mkEcdh e0 (ec_key e0)) (mkDh3 d0 (dh3_key d0)) (ar_ecdh0 m) (ar_dh0 m) now (kdf C 8 x04 key) r0 /\
    dr_rotate_sender C r0 er dr now = Ok r /\
    st = PEnc4 (de_tag d) t r (smp4_new (profile_fingerprint C bob) (profile_fingerprint C alice) (kdf C 8 x04 key)).
(* em, from t, completes an exchange in which this session, in the calls h, received an Identity message from t and
   answered it with an Auth-R message: em is signed by the owner of the identity key in the Identity message (or, as a
   forgery, by the owner of the own forging or ephemeral key), for exactly these two messages and the names. *)
Definition responded4 (h : list event) (t : N) (em : encoded_message) (st : pstate) : Prop :=
  exists i m a bob alice x av e0 d0 now r,
    em_message em = MAuthI a /\ has_got h t V4 (MIdentity i) /\ has_sent h t V4 (MAuthR m) /\
    ar_x m = ec_key x /\ ar_a m = dh3_key av /\ ar_ecdh0 m = ec_key e0 /\ ar_dh0 m = dh3_key d0 /\
    payload_accepted C (ar_profile m) alice /\
    offer_ok C (id_profile i) bob (id_y i) (id_b i) (id_ecdh0 i) (id_dh0 i) /\
    ring_valid C (ai_sigma a) (cp_identity bob) (cp_forging alice) (ar_x m)
      (auth_i_text C (message_view i m bob alice (de_address d) (de_account d))) /\
    let key := mixed_key C (pt_mul C (id_y i) x) (modpow (id_b i) av (c_dh3_p C)) in
    session_from C SENDER key (mkEcdh e0 (ec_key e0)) (mkDh3 d0 (dh3_key d0)) (id_ecdh0 i) (id_dh0 i) now (kdf C 8 x04 key) r /\
    st = PEnc4 (de_tag d) t r (smp4_new (profile_fingerprint C alice) (profile_fingerprint C bob) (kdf C 8 x04 key)).

Definition proven (h : list event) (t : N) (em : encoded_message) (st : pstate) : Prop :=
  (em_version em = V3 /\ (answered3 h t em st \/ revealed3 h t em st)) \/
  (em_version em = V4 /\ (identified4 h t em st \/ responded4 h t em st)).

End WithCrypto.
