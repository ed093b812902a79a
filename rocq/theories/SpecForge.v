(* Vocabulary for C90: who could have made the proofs of an OTRv4 key exchange. *)
From Coq Require Import ZArith.
From Verif Require Import Base Types Crypto Encoding ClientProfile Messages SpecWire Ratchet DataV4 SpecCurve SpecData4
  DAKE SpecDAKE.

Section WithCrypto.
Context (C : Crypto).

(* A private key and its public key. *)
Definition key_pair (k : eddsa_keypair) : Prop :=
  (0 <= ed_secret k)%Z /\ ed_public k = pt_mul C (c_ed_g C) (ed_secret k).
(* The key pair drawn for one key exchange, used as a signing key. *)
Definition as_signer (k : ecdh_keypair) : eddsa_keypair := mkEddsa [] (ec_private k) (ec_public k).

(* The three public keys of a ring differ. *)
Definition three_keys (A1 A2 A3 : point) : Prop :=
  pt_encode A1 <> pt_encode A2 /\ pt_encode A1 <> pt_encode A3 /\ pt_encode A2 <> pt_encode A3.

(* [f] maps the random scalars one to one onto all random scalars; [g] is its inverse.  So if scalars are
   drawn uniformly, their images are uniformly distributed as well. *)
Definition one_to_one (f g : ring_rnd -> ring_rnd) : Prop :=
  (forall r, ring_rnd_ok C r -> ring_rnd_ok C (f r) /\ g (f r) = r) /\
  (forall r, ring_rnd_ok C r -> ring_rnd_ok C (g r) /\ f (g r) = r).

(* Whatever [f] gives for drawn scalars, [g] gives for others, equally often. *)
Definition same_distribution {A} (f g : ring_rnd -> A) : Prop :=
  exists there back, one_to_one there back /\ forall r, ring_rnd_ok C r -> f r = g (there r).

(* The proofs of Auth-R and Auth-I made with the private key [k]; all else that goes into them is public:
   the profiles, the keys, instance tags and names [v] of the exchange. *)
Definition auth_r_proof (v : dake_view) (bob alice : client_profile) (k : ecdh_keypair) (r : ring_rnd)
  : res ring_sig :=
  ring_sign C (as_signer k) (cp_forging bob) (cp_identity alice) (vw_y v) (auth_r_text C v) r.
Definition auth_i_proof (v : dake_view) (bob alice : client_profile) (k : ecdh_keypair) (r : ring_rnd)
  : res ring_sig :=
  ring_sign C (as_signer k) (cp_identity bob) (cp_forging alice) (vw_x v) (auth_i_text C v) r.

(* The Auth-R message with the proof [sg] and otherwise the fields of [m]. *)
Definition with_proof (m : authr_msg) (sg : ring_sig) : authr_msg :=
  mkAuthR (ar_profile m) (ar_x m) (ar_a m) sg (ar_ecdh0 m) (ar_dh0 m).
End WithCrypto.
