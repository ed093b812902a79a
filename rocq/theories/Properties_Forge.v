(* C90: the proofs of the OTRv4 key exchange convince only the peer: the peer could have made them.  Only
   statements, references to their proofs, and examples showing that the hypotheses are met.  Bob sends Identity
   and Auth-I, Alice sends Auth-R. *)
From Coq Require Import Lia.
From Verif Require Import Base BaseLemmas Types Crypto ToyCrypto Encoding ClientProfile ClientProfileProofs Messages
  SpecWire WireLemmas KeyManager DataV3 Ratchet DataV4 SpecCurve SpecData4 Data3Examples Data4Examples DAKE SpecDAKE DAKELemmas
  DAKEExamples SpecForge ForgeProofs ForgeLemmas.

(** * Any two members of a ring sign alike *)

(* For every text and any two of the three key pairs of a ring: each signature is made by one of them with as
   many draws of random scalars as by the other.  (The scalars one of them draws correspond one to one to the
   scalars with which the other makes the same signature.) *)
Theorem C90_members : forall C k1 k2 A m, curve_ok C ->
  key_pair C k1 -> key_pair C k2 ->
  let P1 := ed_public k1 in let P2 := ed_public k2 in
  (three_keys P1 P2 A -> same_distribution C (ring_sign C k1 P1 P2 A m) (ring_sign C k2 P1 P2 A m)) /\
  (three_keys P1 A P2 -> same_distribution C (ring_sign C k1 P1 A P2 m) (ring_sign C k2 P1 A P2 m)) /\
  (three_keys A P1 P2 -> same_distribution C (ring_sign C k1 A P1 P2 m) (ring_sign C k2 A P1 P2 m)).
Proof.
  intros C k1 k2 A m CO K1 K2 P1 P2. repeat apply conj.
  - intros T. now apply (signers_alike C CO _ _ _ _ S1 S2).
  - intros T. now apply (signers_alike C CO _ _ _ _ S1 S3).
  - intros T. now apply (signers_alike C CO _ _ _ _ S2 S3).
Qed.
Print Assumptions C90_members.

(* This goes both ways. *)
Theorem C90_both_ways : forall C A (f g : ring_rnd -> A), same_distribution C f g -> same_distribution C g f.
Proof. intros C A f g. exact (same_sym C f g). Qed.
Print Assumptions C90_both_ways.

(** * The key exchange *)

(* Bob has sent an Identity message; Alice's client, in any state, answers it with [ar].  With the private key
   that Bob drew for this exchange, and what is public, everything that Alice's client may answer, depending on
   the scalars it draws for its proof, can be made with the same distribution. *)
Theorem C90_auth_r : forall C ha hb alice bob na nb rb w idm st ra ring0 sa ar,
  groups_ok4 C -> working_host C ha alice ->
  dake_initiate C hb rb DakeInitial = (DakeAwaitingAuthR w, Ok idm) ->
  payload_accepted C (id_profile idm) bob ->
  three_keys (cp_forging bob) (cp_identity alice) (id_y idm) ->
  dake_handle_identity C ha ra ring0 st idm na nb = (sa, Ok (ReplyAuthR ar)) ->
  same_distribution C
    (fun r => snd (dake_handle_identity C ha ra r st idm na nb))
    (fun r => let* sg := auth_r_proof C (bob_view w ar bob alice nb na) bob alice (wr_y w) r in
              Ok (ReplyAuthR (with_proof ar sg))).
Proof.
  intros C ha hb alice bob na nb rb w idm st ra ring0 sa ar G WA. exact (auth_r_forge C G ha hb alice bob na nb WA rb w idm st ra ring0 sa ar).
Qed.
Print Assumptions C90_auth_r.

(* Likewise for Bob's Auth-I: it can be made with the private key that Alice drew for this exchange. *)
Theorem C90_auth_i : forall C hb alice bob na nb w ar x rx er dr now ring0 s mb i,
  groups_ok4 C -> working_host C hb bob ->
  ecdh_generate C rx = Ok x -> ec_public x = ar_x ar ->
  payload_accepted C (wr_payload w) bob -> payload_accepted C (ar_profile ar) alice ->
  three_keys (cp_identity bob) (cp_forging alice) (ar_x ar) ->
  dake_handle_auth_r C hb ring0 er dr now (DakeAwaitingAuthR w) ar nb na = (s, Ok (mb, i)) ->
  same_distribution C
    (fun r => snd (dake_handle_auth_r C hb r er dr now (DakeAwaitingAuthR w) ar nb na))
    (fun r => let* sg := auth_i_proof C (bob_view w ar bob alice nb na) bob alice x r in
              Ok (mb, mkAuthI sg)).
Proof.
  intros C hb alice bob na nb w ar x rx er dr now ring0 s mb i G WB EX X PB PA T H.
  exact (auth_i_forge C G hb alice bob na nb WB w ar x er dr now ring0 s mb i (generated_pair C rx x EX) X PA T H PB).
Qed.
Print Assumptions C90_auth_i.

(* In the exchange of the examples both theorems apply, and the forged proofs complete the exchange: Bob's
   client accepts the Auth-R that Bob made, Alice's the Auth-I that Alice made. *)
Definition fg_w : awaiting_auth_r :=
  match xd_b1 with DakeAwaitingAuthR w => w | _ => mkAwaitingAuthR (mkEcdh 0 pt_id) (mkDh3 0 0) xd_pa (mkEcdh 0 pt_id) (mkDh3 0 0) xd_id end.
Definition fg_x : ecdh_keypair := Eval vm_compute in or_else (ecdh_generate toy [x13]) (mkEcdh 0 pt_id).
Definition fg_view : dake_view := bob_view fg_w xd_authr xd_bob xd_alice xd_nb xd_na.
Definition fg_authr : authr_msg :=
  with_proof xd_authr (or_else (auth_r_proof toy fg_view xd_bob xd_alice (wr_y fg_w) xd_r2) xd_noring).
Definition fg_authi : authi_msg :=
  mkAuthI (or_else (auth_i_proof toy fg_view xd_bob xd_alice fg_x xd_r1) xd_noring).

Definition fg_done {A} (r : res A) : bool := match r with Ok _ => true | _ => false end.

Example C90_ex :
  groups_ok4 toy /\ working_host toy xd_ha xd_alice /\ working_host toy xd_hb xd_bob /\
  dake_initiate toy xd_hb xd_rb DakeInitial = (DakeAwaitingAuthR fg_w, Ok xd_id) /\
  payload_accepted toy (id_profile xd_id) xd_bob /\ payload_accepted toy (wr_payload fg_w) xd_bob /\
  payload_accepted toy (ar_profile xd_authr) xd_alice /\
  three_keys (cp_forging xd_bob) (cp_identity xd_alice) (id_y xd_id) /\
  three_keys (cp_identity xd_bob) (cp_forging xd_alice) (ar_x xd_authr) /\
  dake_handle_identity toy xd_ha xd_ra xd_r1 DakeInitial xd_id xd_na xd_nb = (xd_a1, Ok (ReplyAuthR xd_authr)) /\
  ecdh_generate toy [x13] = Ok fg_x /\ ec_public fg_x = ar_x xd_authr /\
  dake_handle_auth_r toy xd_hb xd_r2 [x15] 25 xd_now (DakeAwaitingAuthR fg_w) xd_authr xd_nb xd_na
    = (DakeInitial, Ok (xd_mat_b, xd_authi)) /\
  ar_sigma fg_authr <> ar_sigma xd_authr /\
  fg_done (snd (dake_handle_auth_r toy xd_hb xd_r2 [x15] 25 xd_now xd_b1 fg_authr xd_nb xd_na)) = true /\
  ai_sigma fg_authi <> ai_sigma xd_authi /\
  fg_done (snd (dake_handle_auth_i toy xd_now xd_a1 fg_authi xd_na xd_nb)) = true.
Proof.
  split; [exact ex4_groups|]. split; [exact xd_host_a|]. split; [exact xd_host_b|].
  split; [exact xd_step1|].
  split; [exact (signed_profile _ _ _ _ _ _ xd_sign_b)|]. split; [exact (signed_profile _ _ _ _ _ _ xd_sign_b)|].
  split; [exact (signed_profile _ _ _ _ _ _ xd_sign_a)|].
  split; [vm_compute; repeat split; discriminate|]. split; [vm_compute; repeat split; discriminate|].
  split; [exact xd_step2|]. split; [vm_compute; reflexivity|]. split; [vm_compute; reflexivity|].
  split; [exact xd_step3|]. split; [vm_compute; discriminate|]. split; [vm_compute; reflexivity|].
  split; [vm_compute; discriminate|]. vm_compute; reflexivity.
Qed.
