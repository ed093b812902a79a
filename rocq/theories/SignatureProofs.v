From Coq Require Import Lia ZifyN ZifyNat Znumtheory.
From Verif Require Import Base BaseLemmas Types Crypto CryptoProofs Encoding EncodingProofs DataV3Proofs SpecCurve EdGroup PointProofs
  RingProofs SpecSMP4 SMP4Proofs ClientProfile SpecWire ClientProfileProofs WireLemmas SpecSignature.
Local Open Scope Z_scope.

Section WithCrypto.
Context (C : Crypto) (GO : smp4_group C).
Notation G := (c_ed_g C).
Notation q := (c_ed_q C).

Lemma is_id_iff a : is_identity a = true <-> a = pt_id.
Proof. split; [apply is_identity_eq|]. intros ->. reflexivity. Qed.
Lemma verify_decoded R : pt_valid C R -> (pt_verify C R = true <-> R <> pt_id /\ pt_mul C R q = pt_id).
Proof.
  intros V. unfold pt_verify. destruct V as (X & Y & _).
  destruct (Z.leb_spec (c_ed_p C) (px R)); [lia|]. destruct (Z.leb_spec (c_ed_p C) (py R)); [lia|]. rewrite !orb_false_r.
  rewrite negb_true_iff, orb_false_iff, negb_false_iff, is_id_iff.
  split; intros [A B]; (split; [|exact B]).
  - intros E. apply is_id_iff in E. congruence.
  - destruct (is_identity R) eqn:E; [|reflexivity]. apply is_id_iff in E. contradiction.
Qed.
Lemma encode_same a b : pt_valid C a -> pt_valid C b -> pt_encode a = pt_encode b -> a = b.
Proof.
  intros A B E. destruct GO as (CO & P34 & PB & _). apply (point_round_trip C CO P34 PB) in A. apply (point_round_trip C CO P34 PB) in B.
  rewrite E in A. congruence.
Qed.
Lemma good_iff pk sg m : pt_valid C pk -> (eddsa_validate C pk sg m = Ok tt <-> good_signature C pk sg m).
Proof.
  intros VP. pose proof (CO C GO) as CO. unfold eddsa_validate, good_signature.
  fold (ed_scalar sg). fold (ed_challenge C pk sg m).
  destruct (pt_decode C (edsig_R sg)) as [R|] eqn:D; [|split; [discriminate|intros (R & E & _); discriminate E]].
  assert (VR : pt_valid C R) by (apply (decoded_valid C (edsig_R sg)); [apply CO|exact D]).
  assert (SZ : 0 <= ed_scalar sg) by (unfold ed_scalar; lia).
  assert (EQ : forall s, 0 <= s -> (of_bool (ct_compare (pt_encode (pt_mul C G s)) (pt_encode (pt_add C R (pt_mul C pk (ed_challenge C pk sg m))))) = Ok tt <->
     pt_mul C G s = pt_add C R (pt_mul C pk (ed_challenge C pk sg m)))).
  { intros s S. split.
    - intros H. destruct (ct_compare _ _) eqn:CC; [|discriminate H]. apply ct_compare_true in CC. destruct CC as [CC _].
      apply encode_same in CC; [exact CC| |].
      + rewrite (gk_of C GO) by exact S. apply gk_valid. exact GO.
      + apply (valid_add C CO); [exact VR|]. apply (valid_mul C CO). exact VP.
    - intros <-. rewrite (gk_of C GO) by exact S. assert (ct_compare (pt_encode (at_g C s)) (pt_encode (at_g C s)) = true) as ->; [|reflexivity].
      apply ct_compare_true. split; [reflexivity|]. apply gk_encode. exact GO. }
  specialize (EQ _ SZ). pose proof (verify_decoded R VR) as VI. split.
  - destruct (pt_verify C R) eqn:PV; [|discriminate]. cbn [of_bool bind].
    destruct (Z.leb_spec (ed_scalar sg) 0) as [L|L]; [discriminate|]. destruct (Z.leb_spec q (ed_scalar sg)) as [L'|L']; [discriminate|]. cbn [orb].
    intros H. apply EQ in H. destruct (proj1 VI eq_refl) as [A B]. exists R. repeat split; auto.
  - intros (R' & E & NI & O & S & H). injection E as <-. rewrite (proj2 VI (conj NI O)). cbn [of_bool bind].
    destruct (Z.leb_spec (ed_scalar sg) 0) as [L|L]; [lia|]. destruct (Z.leb_spec q (ed_scalar sg)) as [L'|L']; [lia|]. cbn [orb]. apply EQ. exact H.
Qed.
Lemma one_scalar pk sg1 sg2 m : pt_valid C pk -> eddsa_validate C pk sg1 m = Ok tt -> eddsa_validate C pk sg2 m = Ok tt ->
  edsig_R sg1 = edsig_R sg2 -> length (edsig_s sg1) = length (edsig_s sg2) -> sg1 = sg2.
Proof.
  intros VP A B ER EL. apply (good_iff _ _ _ VP) in A. apply (good_iff _ _ _ VP) in B.
  destruct A as (R & DA & _ & _ & SA & QA), B as (R' & DB & _ & _ & SB & QB).
  rewrite ER, DB in DA. injection DA as ->. unfold ed_challenge in QA, QB. rewrite ER in QA. rewrite <- QB in QA.
  rewrite !(gk_of C GO) in QA by lia. apply (gk_inj C GO) in QA. destruct QA as [k K].
  assert (k = 0) as -> by (clear - SA SB K; assert (-1 < k < 1); [|lia]; split; apply Z.nle_gt; intros L; nia).
  assert (E : ed_scalar sg1 = ed_scalar sg2) by lia.
  unfold ed_scalar in E. apply N2Z.inj in E. destruct sg1 as [r1 s1], sg2 as [r2 s2]. cbn in *. subst r2. f_equal.
  rewrite <- (le_bytes_le_val s1), <- (le_bytes_le_val s2), EL, E. reflexivity.
Qed.

Lemma profile_good b p rest : read_payload C b = Ok (p, rest) -> ed_sig_ok (pl_signature p) /\ exists A, flat_map sel_identity (pl_fields p) = [A] /\
  pt_valid C A /\ eddsa_validate C A (pl_signature p) (write_fields (pl_fields p)) = Ok tt.
Proof.
  intros H. destruct GO as (CO & P34 & _). assert (P2 : 2 < c_ed_p C) by apply CO.
  destruct (decoded_profile_valid C b p rest) as [(FO & _ & SO & _) (cp & A)]; [lia| |exact H|].
  { rewrite Z.odd_spec. exists (c_ed_p C / 2). pose proof (Z.div_mod (c_ed_p C) 4). pose proof (Z.div_mod (c_ed_p C) 2). lia. }
  split; [exact SO|]. destruct A as (_ & ID & _ & _ & _ & _ & V & _). exists (cp_identity cp). split; [exact ID|]. split; [|exact V].
  assert (I : In (cp_identity cp) (flat_map sel_identity (pl_fields p))) by (rewrite ID; now left).
  apply in_flat_map in I. destruct I as (f & I & S). rewrite Forall_forall in FO. specialize (FO f I).
  destruct f; cbn in S; try contradiction. destruct S as [<-|[]]. exact (decoded_valid C _ _ P2 FO).
Qed.
Lemma profile_signed b p rest : read_payload C b = Ok (p, rest) ->
  exists A, In (FIdentityKey A) (pl_fields p) /\ good_signature C A (pl_signature p) (write_fields (pl_fields p)).
Proof.
  intros H. destruct (profile_good b p rest H) as (_ & A & ID & V & E). exists A. split; [|apply good_iff; assumption].
  assert (I : In A (flat_map sel_identity (pl_fields p))) by (rewrite ID; now left).
  apply in_flat_map in I. destruct I as (f & I & S). destruct f; cbn in S; try contradiction. destruct S as [<-|[]]. exact I.
Qed.
Lemma profile_one b1 b2 p1 p2 r1 r2 : read_payload C b1 = Ok (p1, r1) -> read_payload C b2 = Ok (p2, r2) ->
  pl_fields p1 = pl_fields p2 -> edsig_R (pl_signature p1) = edsig_R (pl_signature p2) -> p1 = p2.
Proof.
  intros H1 H2 F R. destruct (profile_good _ _ _ H1) as (S1 & A1 & I1 & V1 & E1), (profile_good _ _ _ H2) as (S2 & A2 & I2 & V2 & E2).
  rewrite F, I2 in I1. injection I1 as ->. destruct p1 as [f1 s1], p2 as [f2 s2]. cbn in *. subst f2. f_equal.
  apply (one_scalar A1 s1 s2 (write_fields f1) V1 E1 E2 R). destruct S1 as [_ L1], S2 as [_ L2]. congruence.
Qed.
End WithCrypto.
