(* Ed448 signatures, and the signature of a client profile. *)
From Verif Require Import Base BaseLemmas Types Crypto ToyCrypto Encoding ClientProfile SpecCurve SpecSMP4 SpecWire WireLemmas SMP4Lemmas DAKEExamples ClientProfileProofs
  SpecSignature SignatureProofs.
Local Open Scope N_scope.

(** * C96 A signature is accepted exactly if it is good, and cannot be changed into another one *)

(* Under a key that is a point of the curve a signature of a text is accepted exactly if it is good. *)
Theorem C96_accepted_iff : forall C pk sg m, smp4_group C -> pt_valid C pk ->
  (eddsa_validate C pk sg m = Ok tt <-> good_signature C pk sg m).
Proof. intros C pk sg m GO. exact (good_iff C GO pk sg m). Qed.
Print Assumptions C96_accepted_iff.

(* Of all signatures of a text with the same first half, one is accepted. *)
Theorem C96_one : forall C pk sg1 sg2 m, smp4_group C -> pt_valid C pk ->
  eddsa_validate C pk sg1 m = Ok tt -> eddsa_validate C pk sg2 m = Ok tt ->
  edsig_R sg1 = edsig_R sg2 -> length (edsig_s sg1) = length (edsig_s sg2) -> sg1 = sg2.
Proof. intros C pk sg1 sg2 m GO. exact (one_scalar C GO pk sg1 sg2 m). Qed.
Print Assumptions C96_one.

(* A received client profile has a good signature of all its fields under the identity key it contains, *)
Theorem C96_profile : forall C b p rest, smp4_group C -> read_payload C b = Ok (p, rest) ->
  exists A, In (FIdentityKey A) (pl_fields p) /\ good_signature C A (pl_signature p) (write_fields (pl_fields p)).
Proof. intros C b p rest GO. exact (profile_signed C GO b p rest). Qed.
Print Assumptions C96_profile.
(* and nobody can make another acceptable profile of it by changing the second half of the signature. *)
Theorem C96_profile_one : forall C b1 b2 p1 p2 r1 r2, smp4_group C ->
  read_payload C b1 = Ok (p1, r1) -> read_payload C b2 = Ok (p2, r2) ->
  pl_fields p1 = pl_fields p2 -> edsig_R (pl_signature p1) = edsig_R (pl_signature p2) -> p1 = p2.
Proof. intros C b1 b2 p1 p2 r1 r2 GO. exact (profile_one C GO b1 b2 p1 p2 r1 r2). Qed.
Print Assumptions C96_profile_one.

(* A signature that is accepted; with the order of the group added to its second half the equation still holds, but it is not
   accepted. *)
Definition sg_more (sg : ed_sig) : ed_sig := mkEdSig (edsig_R sg) (le_bytes 57 (le_val (edsig_s sg) + Z.to_N (c_ed_q toy))).
Example C96_ex : smp4_group toy /\ exists sg, eddsa_sign toy xd_ka [x68; x69] = Ok sg /\
  eddsa_validate toy (ed_public xd_ka) sg [x68; x69] = Ok tt /\
  pt_mul toy (c_ed_g toy) (ed_scalar (sg_more sg)) = pt_mul toy (c_ed_g toy) (ed_scalar sg) /\
  ed_challenge toy (ed_public xd_ka) (sg_more sg) [x68; x69] = ed_challenge toy (ed_public xd_ka) sg [x68; x69] /\
  eddsa_validate toy (ed_public xd_ka) (sg_more sg) [x68; x69] = Err CryptographicViolation.
Proof.
  split; [exact toy_smp4_group|]. eexists. split; [vm_compute; reflexivity|]. repeat split; vm_compute; reflexivity.
Qed.
Example C96_ex_profile : exists payload, profile_sign toy ex_profile ex_identity (Some (toy_dsa 5)) [] = Ok payload /\
  exists p rest, read_payload toy (write_payload payload) = Ok (p, rest).
Proof.
  destruct ex_profile_signs as (payload & S & W). exists payload. split; [exact S|]. exists payload, [].
  rewrite <- (app_nil_r (write_payload payload)). apply read_payload_write. exact W.
Qed.
