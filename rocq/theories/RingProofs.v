(* Decoded points are on the curve; ring signatures verify. *)
From Coq Require Import Lia ZifyN ZifyNat Znumtheory.
From Verif Require Import Base BaseLemmas Types Crypto CryptoProofs Encoding EncodingProofs ClientProfile Messages
  SpecWire DataV3 DataV3Proofs Ratchet DataV4 SpecCurve EdGroup PointProofs SpecData4 DAKE SpecDAKE.
Local Open Scope Z_scope.

Section WithCrypto.
Context (C : Crypto).

Lemma decoded_valid enc a : 2 < c_ed_p C -> pt_decode C enc = Some a -> pt_valid C a.
Proof.
  intros P2. unfold pt_decode. set (p := c_ed_p C) in *. set (d := c_ed_d C).
  set (y := Z.of_N (le_val (firstn 56 enc))).
  destruct (Z.leb_spec p y) as [|Yr]; [discriminate|].
  set (num := y * y - 1). set (den := y * y * d - 1).
  set (x := (num * num * num * den * _) mod p).
  assert (Xr : 0 <= x < p) by (apply Z.mod_pos_bound; lia). clearbody x.
  destruct (Z.eqb_spec (num mod p) ((x * x * den) mod p)) as [E|]; cbn [negb]; [|discriminate].
  assert (V : forall z, (z * z) mod p = (x * x) mod p ->
              (z * z + y * y) mod p = (1 + d * z * z * y * y) mod p).
  { intros z Q.
    replace (1 + d * z * z * y * y) with (1 + (z * z) * (d * y * y)) by ring.
    rewrite (Z.add_mod (z * z)), (Z.add_mod 1), (Z.mul_mod (z * z)), Q by lia.
    rewrite <- (Z.mul_mod (x * x)), <- (Z.add_mod (x * x)), <- (Z.add_mod 1) by lia.
    assert (D : (p | num - x * x * den)).
    { apply Z.mod_divide; [lia|]. rewrite Zminus_mod, E, Z.sub_diag. apply Z.mod_0_l. lia. }
    destruct D as [k K]. unfold num, den in K.
    replace (x * x + y * y) with (1 + x * x * (d * y * y) + k * p) by (rewrite <- K; ring).
    apply Z.mod_add. lia. }
  destruct ((x =? 0) && _) eqn:Z0; [discriminate|].
  destruct (Bool.eqb (Z.even x) _) eqn:EV; intros H; injection H as <-; unfold pt_valid; cbn [px py]; fold p d.
  - split; [lia|]. split; [subst y; lia|]. apply V. reflexivity.
  - assert (NZ : x <> 0).
    { intros ->. destruct (N.testbit _ 7); [discriminate Z0|]. discriminate EV. }
    split; [lia|]. split; [subst y; lia|]. apply V.
    replace ((p - x) * (p - x)) with (x * x + (p - 2 * x) * p) by ring. apply Z.mod_add. lia.
Qed.

Lemma curve_points : curve_ok C -> c_ed_p C mod 4 = 3 -> c_ed_p C <= 2 ^ 448 ->
  (forall p rest, pt_valid C p -> read_ed448_point C (write_ed448_point p ++ rest) = Ok (p, rest))
  /\ (forall buf p rest, read_ed448_point C buf = Ok (p, rest) -> pt_valid C p)
  /\ (forall p p', pt_valid C p -> pt_valid C p' -> write_ed448_point p = write_ed448_point p' -> p = p').
Proof.
  intros CO P34 PB. split; [|split].
  - intros p rest V. apply read_ed448_point_write. now apply point_round_trip.
  - intros buf p rest H. unfold read_ed448_point in H. apply bind_ok in H. destruct H as ([enc buf'] & _ & H).
    destruct (pt_decode C enc) as [p'|] eqn:D; [|discriminate]. apply decoded_valid in D; [|apply CO].
    replace p with p' by congruence. exact D.
  - intros p p' V V' E. now apply (encode_inj C CO P34 PB).
Qed.

Context (CO : curve_ok C).
Notation G := (c_ed_g C).
Notation q := (c_ed_q C).

Lemma G_valid : pt_valid C G. Proof. apply CO. Qed.
Lemma q_pos : 0 < q. Proof. apply CO. Qed.
Lemma G_order : pt_mul C G q = pt_id. Proof. apply CO. Qed.

Lemma verify_iff a : pt_verify C a = true <->
  a <> pt_id /\ px a < c_ed_p C /\ py a < c_ed_p C /\ pt_mul C a q = pt_id.
Proof.
  unfold pt_verify. rewrite negb_true_iff, !orb_false_iff, negb_false_iff, !Z.leb_gt. split.
  - intros (((I & X) & Y) & Q). apply is_identity_eq in Q.
    split; [|auto]. intros ->. discriminate I.
  - intros (I & X & Y & Q). repeat split; auto.
    + destruct (is_identity a) eqn:E; [|reflexivity]. apply is_identity_eq in E. contradiction.
    + rewrite Q. reflexivity.
Qed.

(* s G = (s mod q) G *)
Lemma G_mod s : 0 <= s -> pt_mul C G (s mod q) = pt_mul C G s.
Proof. intros H. apply mul_mod; auto using G_valid, q_pos, G_order. Qed.

(* the commitment of the signer: (t - c s) G + c (s G) = t G *)
Lemma signer_commitment s t c : 0 <= s -> 0 <= t -> 0 <= c ->
  pt_add C (pt_mul C G ((t - (c * s) mod q) mod q)) (pt_mul C (pt_mul C G s) c) = pt_mul C G t.
Proof.
  intros S T K. pose proof q_pos as Q.
  rewrite mul_mul by auto using G_valid.
  rewrite <- (G_mod (s * c)) by nia.
  rewrite <- mul_add; auto using G_valid; try (apply Z.mod_pos_bound; lia).
  rewrite <- G_mod by (pose proof (Z.mod_pos_bound (t - (c * s) mod q) q Q);
                        pose proof (Z.mod_pos_bound (s * c) q Q); lia).
  rewrite <- (G_mod t) by assumption. f_equal.
  rewrite Z.add_mod_idemp_l by lia. rewrite (Z.mul_comm c s). f_equal. ring.
Qed.

Lemma to_bytes_le_inj a b : biguint_to_bytes_le a = biguint_to_bytes_le b -> a = b.
Proof. intros H. apply (f_equal le_val) in H. now rewrite !le_val_minimal in H. Qed.
Lemma le_val_zero l : all_zero l = true -> le_val l = 0%N.
Proof.
  rewrite all_zero_iff. induction 1 as [|x l -> _ IH]; [reflexivity|]. cbn [le_val]. rewrite IH. reflexivity.
Qed.
Lemma to_bytes_le_nonzero a : a <> 0%N -> any_nonzero (biguint_to_bytes_le a) = true.
Proof.
  intros H. unfold any_nonzero. destruct (all_zero _) eqn:E; [|reflexivity]. apply le_val_zero in E.
  rewrite le_val_minimal in E. contradiction.
Qed.

Lemma compare_scalars_true a b : 0 <= a -> 0 <= b ->
  compare_scalars a b = Ok true <-> a = b /\ b <> 0.
Proof.
  intros A B. unfold compare_scalars. split.
  - destruct (Z.eqb_spec a 0) as [->|NA], (Z.eqb_spec b 0) as [->|NB]; cbn [Bool.eqb]; try discriminate.
    intros H. injection H as H. apply ct_compare_true in H. destruct H as [H _].
    apply to_bytes_le_inj in H. lia.
  - intros [-> NB]. destruct (Z.eqb_spec b 0) as [|_]; [contradiction|]. cbn [Bool.eqb]. f_equal.
    apply ct_compare_true. split; [reflexivity|]. apply to_bytes_le_nonzero. lia.
Qed.

Lemma ring_validate_iff sg A1 A2 A3 m : ring_validate C sg A1 A2 A3 m = Ok tt <-> ring_valid C sg A1 A2 A3 m.
Proof.
  unfold ring_validate, ring_valid, hash_to_scalar, decode_scalar. pose proof q_pos as Q.
  set (h := hwc _ _ _ _). cbv zeta.
  match goal with |- context [le_val (kdf C 57 x1a ?d)] => change (kdf C 57 x1a d) with h end.
  clearbody h. set (sum := (rs_c1 sg + rs_c2 sg + rs_c3 sg) mod q). assert (S : 0 <= sum < q) by (apply Z.mod_pos_bound; lia).
  clearbody sum. split.
  - destruct (all_zero h) eqn:Z0; cbn [bind]; [discriminate|].
    destruct (compare_scalars _ _) as [b| |] eqn:E; cbn [bind]; try discriminate.
    destruct b; [|discriminate]. intros _. apply compare_scalars_true in E; [exact E| |lia].
    apply Z.mod_pos_bound. lia.
  - intros [E N]. destruct (all_zero h) eqn:Z0.
    + apply le_val_zero in Z0. rewrite Z0 in E. change (Z.of_N 0) with 0 in E. rewrite Z.mod_0_l in E by lia. congruence.
    + cbn [bind]. assert (X : compare_scalars (Z.of_N (le_val h) mod q) sum = Ok true).
      { apply compare_scalars_true; [apply Z.mod_pos_bound; lia|lia|auto]. }
      rewrite X. reflexivity.
Qed.

Lemma of_bool_ok b u : of_bool b = Ok u -> b = true.
Proof. destruct b; [reflexivity|discriminate]. Qed.

Lemma same_point_ok a b e : same_point a b = Ok e -> e = bytes_eqb (pt_encode a) (pt_encode b).
Proof. unfold same_point. destruct (_ || _); [discriminate|]. intros H. congruence. Qed.

Ltac simpl_sums H :=
  repeat first [rewrite Z.mul_0_l in H | rewrite Z.mul_1_l in H | rewrite Z.add_0_l in H | rewrite Z.add_0_r in H].

(* What a signature by the owner of A1, A2 or A3 looks like. *)
Lemma ring_sign_valid kp A1 A2 A3 m rnd sg :
  ed_public kp = pt_mul C G (ed_secret kp) -> 0 <= ed_secret kp -> ring_rnd_ok C rnd ->
  pt_valid C A1 -> pt_valid C A2 -> pt_valid C A3 ->
  (pt_encode (ed_public kp) = pt_encode A1 -> A1 = ed_public kp) ->
  (pt_encode (ed_public kp) = pt_encode A2 -> A2 = ed_public kp) ->
  (pt_encode (ed_public kp) = pt_encode A3 -> A3 = ed_public kp) ->
  ring_sign C kp A1 A2 A3 m rnd = Ok sg -> good_ring C sg -> ring_validate C sg A1 A2 A3 m = Ok tt.
Proof.
  intros PK SN R V1 V2 V3 I1 I2 I3 H GR. pose proof q_pos as Q.
  destruct R as (Rt & Rc1 & Rc2 & Rc3 & Rr1 & Rr2 & Rr3). cbv beta in *.
  unfold ring_sign in H.
  destruct (of_bool (pt_verify C A1)); cbn [bind] in H; try discriminate.
  destruct (of_bool (pt_verify C A2)); cbn [bind] in H; try discriminate.
  destruct (of_bool (pt_verify C A3)); cbn [bind] in H; try discriminate.
  destruct (same_point (ed_public kp) A1) as [e1| |] eqn:S1; cbn [bind] in H; try discriminate.
  destruct (same_point (ed_public kp) A2) as [e2| |] eqn:S2; cbn [bind] in H; try discriminate.
  destruct (same_point (ed_public kp) A3) as [e3| |] eqn:S3; cbn [bind] in H; try discriminate.
  apply same_point_ok in S1, S2, S3.
  destruct (negb _) eqn:SUM; [discriminate|]. apply negb_false_iff, Z.eqb_eq in SUM.
  destruct (hash_to_scalar C USAGE_AUTH _) as [c| |] eqn:HS; cbn [bind] in H; try discriminate.
  assert (CR : 0 <= c < q).
  { unfold hash_to_scalar, decode_scalar in HS. destruct (all_zero _); [discriminate|]. injection HS as <-.
    apply Z.mod_pos_bound. lia. }
  assert (MB : forall z, 0 <= z mod q < q) by (intros z; apply Z.mod_pos_bound; lia).
  destruct e1, e2, e3; cbn [b2z] in SUM; try (exfalso; lia); clear SUM; cbn [b2z] in H, HS; cbv zeta in H.
  - symmetry in S1. apply bytes_eqb_eq, I1 in S1. subst A1.
    change (1 - 1) with 0 in H, HS. change (1 - 0) with 1 in H, HS.
    simpl_sums H. simpl_sums HS.
    rewrite ?mul_0, ?add_id_l, ?add_id_r in HS.
    match type of H with Ok ?x = Ok _ => assert (SG : sg = x) by congruence end. subst sg. clear H.
    unfold good_ring in GR. unfold ring_validate. cbn [rs_c1 rs_c2 rs_c3 rs_r1 rs_r2 rs_r3] in *.
    rewrite PK in HS |- *. rewrite signer_commitment by (try apply MB; lia).
    rewrite HS. cbn [bind].
    assert (SM : ((c - rr_c2 rnd - rr_c3 rnd) mod q + rr_c2 rnd + rr_c3 rnd) mod q = c).
    { rewrite <- (Z.add_assoc _ (rr_c2 rnd)), Z.add_mod_idemp_l by lia.
      replace (_ + _) with c by ring. apply Z.mod_small. exact CR. }
    rewrite SM in GR |- *.
    assert (X : compare_scalars c c = Ok true) by (apply compare_scalars_true; lia). rewrite X. reflexivity.
  - symmetry in S2. apply bytes_eqb_eq, I2 in S2. subst A2.
    change (1 - 1) with 0 in H, HS. change (1 - 0) with 1 in H, HS.
    simpl_sums H. simpl_sums HS.
    rewrite ?mul_0, ?add_id_l, ?add_id_r in HS.
    match type of H with Ok ?x = Ok _ => assert (SG : sg = x) by congruence end. subst sg. clear H.
    unfold good_ring in GR. unfold ring_validate. cbn [rs_c1 rs_c2 rs_c3 rs_r1 rs_r2 rs_r3] in *.
    rewrite PK in HS |- *. rewrite signer_commitment by (try apply MB; lia).
    rewrite HS. cbn [bind].
    assert (SM : (rr_c1 rnd + (c - rr_c1 rnd - rr_c3 rnd) mod q + rr_c3 rnd) mod q = c).
    { rewrite (Z.add_comm (rr_c1 rnd)), <- (Z.add_assoc _ (rr_c1 rnd)), Z.add_mod_idemp_l by lia.
      replace (_ + _) with c by ring. apply Z.mod_small. exact CR. }
    rewrite SM in GR |- *.
    assert (X : compare_scalars c c = Ok true) by (apply compare_scalars_true; lia). rewrite X. reflexivity.
  - symmetry in S3. apply bytes_eqb_eq, I3 in S3. subst A3.
    change (1 - 1) with 0 in H, HS. change (1 - 0) with 1 in H, HS.
    simpl_sums H. simpl_sums HS.
    rewrite ?mul_0, ?add_id_l, ?add_id_r in HS.
    match type of H with Ok ?x = Ok _ => assert (SG : sg = x) by congruence end. subst sg. clear H.
    unfold good_ring in GR. unfold ring_validate. cbn [rs_c1 rs_c2 rs_c3 rs_r1 rs_r2 rs_r3] in *.
    rewrite PK in HS |- *. rewrite signer_commitment by (try apply MB; lia).
    rewrite HS. cbn [bind].
    assert (SM : (rr_c1 rnd + rr_c2 rnd + (c - rr_c1 rnd - rr_c2 rnd) mod q) mod q = c).
    { rewrite Z.add_comm, Z.add_mod_idemp_l by lia.
      replace (_ + _) with c by ring. apply Z.mod_small. exact CR. }
    rewrite SM in GR |- *.
    assert (X : compare_scalars c c = Ok true) by (apply compare_scalars_true; lia). rewrite X. reflexivity.
Qed.

Lemma ring_sign_not_err kp A1 A2 A3 m rnd e :
  pt_verify C A1 = true -> pt_verify C A2 = true -> pt_verify C A3 = true ->
  ring_sign C kp A1 A2 A3 m rnd <> Err e.
Proof.
  intros E1 E2 E3. unfold ring_sign. rewrite E1, E2, E3. cbn [of_bool bind].
  unfold same_point. destruct (_ || _); cbn [bind]; [discriminate|].
  destruct (_ || _); cbn [bind]; [discriminate|]. destruct (_ || _); cbn [bind]; [discriminate|].
  destruct (negb _); [discriminate|]. unfold hash_to_scalar, decode_scalar.
  destruct (all_zero _); cbn [bind]; discriminate.
Qed.
End WithCrypto.
