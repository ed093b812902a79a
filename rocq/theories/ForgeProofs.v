(* Ring signatures by different members of a ring are equally distributed. *)
From Coq Require Import Lia ZifyN ZifyNat Znumtheory.
From Verif Require Import Base BaseLemmas Types Crypto CryptoProofs Encoding ClientProfile Messages SpecWire DataV3
  DataV3Proofs Ratchet DataV4 SpecCurve EdGroup SpecData4 DAKE SpecDAKE RingProofs SpecForge.
Local Open Scope Z_scope.

(* a position in the ring *)
Inductive slot : Type := S1 | S2 | S3.
Definition at_ {A} (i : slot) (a1 a2 a3 : A) : A := match i with S1 => a1 | S2 => a2 | S3 => a3 end.
Definition other (i j : slot) : slot :=
  match i, j with
  | S1, S2 | S2, S1 => S3 | S1, S3 | S3, S1 => S2 | S2, S3 | S3, S2 => S1 | _, _ => i
  end.
Definition slot_eqb (i j : slot) : bool :=
  match i, j with S1, S1 | S2, S2 | S3, S3 => true | _, _ => false end.

Section WithCrypto.
Context (C : Crypto) (CO : curve_ok C).
Notation G := (c_ed_g C).
Notation q := (c_ed_q C).

Definition rc (i : slot) (r : ring_rnd) : Z := at_ i (rr_c1 r) (rr_c2 r) (rr_c3 r).
Definition rr (i : slot) (r : ring_rnd) : Z := at_ i (rr_r1 r) (rr_r2 r) (rr_r3 r).

Section Ring.
Context (A1 A2 A3 : point) (m : bytes).
Definition key (i : slot) : point := at_ i A1 A2 A3.

(* the commitment at [l] when the owner of position [i] signs *)
Definition com (i : slot) (r : ring_rnd) (l : slot) : point :=
  if slot_eqb i l then pt_mul C G (rr_t r)
  else pt_add C (pt_mul C G (rr l r)) (pt_mul C (key l) (rc l r)).
Definition challenge (i : slot) (r : ring_rnd) : res Z :=
  hash_to_scalar C USAGE_AUTH (ring_hash_input C A1 A2 A3 (com i r S1) (com i r S2) (com i r S3) m).
Definition sum_others (i : slot) (r : ring_rnd) (c : Z) : Z :=
  match i with
  | S1 => c - rr_c2 r - rr_c3 r
  | S2 => c - rr_c1 r - rr_c3 r
  | S3 => c - rr_c1 r - rr_c2 r
  end.
Definition own_c (i : slot) (r : ring_rnd) (c : Z) : Z := sum_others i r c mod q.
Definition own_r (i : slot) (s : Z) (r : ring_rnd) (c : Z) : Z := (rr_t r - (own_c i r c * s) mod q) mod q.
Definition sig_c (i : slot) (r : ring_rnd) (c : Z) (l : slot) : Z := if slot_eqb i l then own_c i r c else rc l r.
Definition sig_r (i : slot) (s : Z) (r : ring_rnd) (c : Z) (l : slot) : Z :=
  if slot_eqb i l then own_r i s r c else rr l r.

Definition ring_form (i : slot) (s : Z) (r : ring_rnd) : res ring_sig :=
  let* _ := of_bool (pt_verify C A1) in
  let* _ := of_bool (pt_verify C A2) in
  let* _ := of_bool (pt_verify C A3) in
  if all_zero (pt_encode A1) || all_zero (pt_encode A2) || all_zero (pt_encode A3) then Panic
  else
    let* c := challenge i r in
    Ok (mkRing (sig_c i r c S1) (sig_r i s r c S1) (sig_c i r c S2) (sig_r i s r c S2)
               (sig_c i r c S3) (sig_r i s r c S3)).

Lemma eqb_refl_ (l : bytes) : bytes_eqb l l = true. Proof. apply bytes_eqb_eq. reflexivity. Qed.
Lemma eqb_diff (a b : bytes) : a <> b -> bytes_eqb a b = false.
Proof. intros H. destruct (bytes_eqb a b) eqn:E; [|reflexivity]. apply bytes_eqb_eq in E. contradiction. Qed.

Lemma ring_sign_form i kp r : three_keys A1 A2 A3 -> ed_public kp = key i ->
  ring_sign C kp A1 A2 A3 m r = ring_form i (ed_secret kp) r.
Proof.
  intros (D12 & D13 & D23) K. unfold ring_sign, ring_form.
  destruct (of_bool (pt_verify C A1)); cbn [bind]; [|reflexivity..].
  destruct (of_bool (pt_verify C A2)); cbn [bind]; [|reflexivity..].
  destruct (of_bool (pt_verify C A3)); cbn [bind]; [|reflexivity..].
  unfold same_point. rewrite K.
  assert (D21 := not_eq_sym D12). assert (D31 := not_eq_sym D13). assert (D32 := not_eq_sym D23).
  destruct i; cbn [key at_].
  - destruct (all_zero (pt_encode A1)); cbn [orb bind]; [reflexivity|].
    destruct (all_zero (pt_encode A2)); cbn [orb bind]; [reflexivity|].
    destruct (all_zero (pt_encode A3)); cbn [orb bind]; [reflexivity|].
    rewrite eqb_refl_, (eqb_diff _ _ D12), (eqb_diff _ _ D13).
    cbn [b2z]. change (1 + 0 + 0 =? 1) with true. cbn [negb]. cbv zeta.
    change (1 - 1) with 0. change (1 - 0) with 1.
    rewrite !Z.mul_0_l, !Z.mul_1_l, ?Z.add_0_l, ?Z.add_0_r, !mul_0, ?add_id_l, ?add_id_r.
    unfold challenge, com, key, rr, rc. cbn [slot_eqb at_].
    destruct (hash_to_scalar _ _ _); cbn [bind]; [|reflexivity..].
    unfold sig_c, sig_r, own_r, own_c, rr, rc, sum_others. cbn [slot_eqb at_].
    rewrite ?Z.mul_0_l, ?Z.mul_1_l, ?Z.add_0_l, ?Z.add_0_r. reflexivity.
  - rewrite (orb_comm (all_zero (pt_encode A2)) (all_zero (pt_encode A1))).
    destruct (all_zero (pt_encode A1)); cbn [orb bind]; [reflexivity|].
    destruct (all_zero (pt_encode A2)); cbn [orb bind]; [reflexivity|].
    destruct (all_zero (pt_encode A3)); cbn [orb bind]; [reflexivity|].
    rewrite eqb_refl_, (eqb_diff _ _ D21), (eqb_diff _ _ D23).
    cbn [b2z]. change (0 + 1 + 0 =? 1) with true. cbn [negb]. cbv zeta.
    change (1 - 1) with 0. change (1 - 0) with 1.
    rewrite !Z.mul_0_l, !Z.mul_1_l, ?Z.add_0_l, ?Z.add_0_r, !mul_0, ?add_id_l, ?add_id_r.
    unfold challenge, com, key, rr, rc. cbn [slot_eqb at_].
    destruct (hash_to_scalar _ _ _); cbn [bind]; [|reflexivity..].
    unfold sig_c, sig_r, own_r, own_c, rr, rc, sum_others. cbn [slot_eqb at_].
    rewrite ?Z.mul_0_l, ?Z.mul_1_l, ?Z.add_0_l, ?Z.add_0_r. reflexivity.
  - rewrite (orb_comm (all_zero (pt_encode A3)) (all_zero (pt_encode A1))).
    rewrite (orb_comm (all_zero (pt_encode A3)) (all_zero (pt_encode A2))).
    destruct (all_zero (pt_encode A1)); cbn [orb bind]; [reflexivity|].
    destruct (all_zero (pt_encode A3)); cbn [orb bind]; [rewrite ?orb_true_r; reflexivity|].
    destruct (all_zero (pt_encode A2)); cbn [orb bind]; [reflexivity|].
    rewrite eqb_refl_, (eqb_diff _ _ D31), (eqb_diff _ _ D32).
    cbn [b2z]. change (0 + 0 + 1 =? 1) with true. cbn [negb]. cbv zeta.
    change (1 - 1) with 0. change (1 - 0) with 1.
    rewrite !Z.mul_0_l, !Z.mul_1_l, ?Z.add_0_l, ?Z.add_0_r, !mul_0, ?add_id_l, ?add_id_r.
    unfold challenge, com, key, rr, rc. cbn [slot_eqb at_].
    destruct (hash_to_scalar _ _ _); cbn [bind]; [|reflexivity..].
    unfold sig_c, sig_r, own_r, own_c, rr, rc, sum_others. cbn [slot_eqb at_].
    rewrite ?Z.mul_0_l, ?Z.mul_1_l, ?Z.add_0_l, ?Z.add_0_r. reflexivity.
Qed.

(* The scalars with which the owner of position [j], with secret [sj], makes the signature that the owner of
   position [i], with secret [si], makes with [r]. *)
Definition chal (i : slot) (r : ring_rnd) : Z := match challenge i r with Ok c => c | _ => 0 end.
Definition move (i j : slot) (si sj : Z) (r : ring_rnd) : ring_rnd :=
  let c := chal i r in
  let pick f own l := if slot_eqb l i then own else if slot_eqb l j then f i r else f l r in
  let pc := pick rc (own_c i r c) in let pr := pick rr (own_r i si r c) in
  mkRingRnd ((rr j r + rc j r * sj) mod q) (pc S1) (pc S2) (pc S3) (pr S1) (pr S2) (pr S3).

Context (i j : slot) (si sj : Z) (IJ : slot_eqb i j = false).
Context (Ki : key i = pt_mul C G si) (Kj : key j = pt_mul C G sj) (Pi : 0 <= si) (Pj : 0 <= sj).

Lemma mod_range z : 0 <= z mod q < q. Proof. apply Z.mod_pos_bound. apply q_pos, CO. Qed.

Lemma rnd_rc l r : ring_rnd_ok C r -> 0 <= rc l r < q.
Proof. intros (_ & ? & ? & ? & _). destruct l; assumption. Qed.
Lemma rnd_rr l r : ring_rnd_ok C r -> 0 <= rr l r < q.
Proof. intros (_ & _ & _ & _ & ? & ? & ?). destruct l; assumption. Qed.

Lemma move_ok r : ring_rnd_ok C r -> ring_rnd_ok C (move i j si sj r).
Proof.
  intros R. pose proof (fun l => rnd_rc l r R) as RC. pose proof (fun l => rnd_rr l r R) as RR.
  unfold move, ring_rnd_ok. cbn [rr_t rr_c1 rr_c2 rr_c3 rr_r1 rr_r2 rr_r3].
  split; [apply mod_range|]. unfold own_c, own_r.
  assert (X : forall l, 0 <= (if slot_eqb l i then sum_others i r (chal i r) mod q
                              else if slot_eqb l j then rc i r else rc l r) < q).
  { intros l. destruct (slot_eqb l i); [apply mod_range|]. destruct (slot_eqb l j); apply RC. }
  assert (Y : forall l v, 0 <= (if slot_eqb l i then v mod q
                              else if slot_eqb l j then rr i r else rr l r) < q).
  { intros l v. destruct (slot_eqb l i); [apply mod_range|]. destruct (slot_eqb l j); apply RR. }
  repeat split; try apply X; try apply Y.
Qed.

(* the commitments do not change *)
Lemma com_move r l : ring_rnd_ok C r -> com j (move i j si sj r) l = com i r l.
Proof.
  intros R. pose proof (rnd_rc j r R) as RC. pose proof (rnd_rr j r R) as RR. pose proof (q_pos C CO) as Q.
  destruct (slot_eqb j l) eqn:JL.
  - assert (l = j) by (destruct j, l; try discriminate JL; reflexivity). subst l.
    unfold com. rewrite JL, IJ. unfold move. cbn [rr_t]. rewrite G_mod by (exact CO || nia).
    rewrite mul_add by (exact CO || apply G_valid, CO || nia).
    f_equal. rewrite Kj, mul_mul by (exact CO || apply G_valid, CO). f_equal. ring.
  - unfold com at 1. rewrite JL. destruct (slot_eqb i l) eqn:IL.
    + assert (l = i) by (destruct i, l; try discriminate IL; reflexivity). subst l.
      unfold com. rewrite IL.
      assert (E1 : rr i (move i j si sj r) = own_r i si r (chal i r)).
      { unfold move, rr. clear -IL. destruct i; reflexivity. }
      assert (E2 : rc i (move i j si sj r) = own_c i r (chal i r)).
      { unfold move, rc. clear -IL. destruct i; reflexivity. }
      rewrite E1, E2, Ki. unfold own_r. apply (signer_commitment C CO); auto.
      * destruct R as (T & _). lia.
      * apply mod_range.
    + unfold com. rewrite IL.
      assert (E1 : rr l (move i j si sj r) = rr l r).
      { unfold move, rr. clear -IL JL IJ. destruct i, j, l; try discriminate; reflexivity. }
      assert (E2 : rc l (move i j si sj r) = rc l r).
      { unfold move, rc. clear -IL JL IJ. destruct i, j, l; try discriminate; reflexivity. }
      now rewrite E1, E2.
Qed.

Lemma challenge_move r : ring_rnd_ok C r -> challenge j (move i j si sj r) = challenge i r.
Proof. intros R. unfold challenge. now rewrite !com_move by exact R. Qed.

Lemma sub_cancel a b c : 0 <= a < q -> (c - (c - a - b) mod q - b) mod q = a.
Proof.
  intros A. pose proof (q_pos C CO).
  replace (c - (c - a - b) mod q - b) with ((c - b) - (c - a - b) mod q) by ring.
  rewrite Zminus_mod_idemp_r. replace (c - b - (c - a - b)) with a by ring. now apply Z.mod_small.
Qed.
Lemma sub_cancel2 a b c : 0 <= a < q -> (c - b - (c - a - b) mod q) mod q = a.
Proof.
  intros A. rewrite Zminus_mod_idemp_r. replace (c - b - (c - a - b)) with a by ring. now apply Z.mod_small.
Qed.
Lemma sub_cancel3 a b c : 0 <= a < q -> (c - b - (c - b - a) mod q) mod q = a.
Proof.
  intros A. rewrite Zminus_mod_idemp_r. replace (c - b - (c - b - a)) with a by ring. now apply Z.mod_small.
Qed.
Lemma sub_cancel4 a b c : 0 <= a < q -> (c - (c - b - a) mod q - b) mod q = a.
Proof.
  intros A. replace (c - (c - b - a) mod q - b) with ((c - b) - (c - b - a) mod q) by ring. now apply sub_cancel3.
Qed.

(* the challenge of position [j] comes back *)
Lemma own_c_move r c : ring_rnd_ok C r -> c = chal i r -> own_c j (move i j si sj r) c = rc j r.
Proof.
  intros R ->. pose proof (rnd_rc j r R) as RC.
  unfold own_c, move, sum_others, rc in *. cbn [rr_c1 rr_c2 rr_c3]. unfold own_c, sum_others.
  clear Ki Kj. destruct i, j; try discriminate IJ; cbn [slot_eqb at_] in *;
    first [now apply sub_cancel | now apply sub_cancel2 | now apply sub_cancel3 | now apply sub_cancel4].
Qed.

Lemma own_r_move r c : ring_rnd_ok C r -> c = chal i r -> own_r j sj (move i j si sj r) c = rr j r.
Proof.
  intros R E. pose proof (rnd_rr j r R) as RR. pose proof (q_pos C CO) as Q.
  unfold own_r. rewrite own_c_move by assumption. unfold move. cbn [rr_t].
  rewrite Zminus_mod_idemp_l, Zminus_mod_idemp_r.
  replace (rr j r + rc j r * sj - rc j r * sj) with (rr j r) by ring. now apply Z.mod_small.
Qed.

Lemma form_move r : ring_rnd_ok C r -> ring_form i si r = ring_form j sj (move i j si sj r).
Proof.
  intros R. unfold ring_form. rewrite challenge_move by exact R.
  destruct (of_bool (pt_verify C A1)); cbn [bind]; [|reflexivity..].
  destruct (of_bool (pt_verify C A2)); cbn [bind]; [|reflexivity..].
  destruct (of_bool (pt_verify C A3)); cbn [bind]; [|reflexivity..].
  destruct (_ || _); [reflexivity|].
  destruct (challenge i r) as [c| |] eqn:CH; cbn [bind]; [|reflexivity..].
  assert (E : c = chal i r) by (unfold chal; now rewrite CH).
  assert (SC : forall l, sig_c i r c l = sig_c j (move i j si sj r) c l).
  { intros l. unfold sig_c. destruct (slot_eqb j l) eqn:JL.
    - assert (l = j) by (destruct j, l; try discriminate JL; reflexivity). subst l.
      rewrite IJ, own_c_move by assumption. reflexivity.
    - destruct (slot_eqb i l) eqn:IL; rewrite ?E; unfold move, rc; clear -IL JL IJ;
        destruct i, j, l; try discriminate; reflexivity. }
  assert (SR : forall l, sig_r i si r c l = sig_r j sj (move i j si sj r) c l).
  { intros l. unfold sig_r. destruct (slot_eqb j l) eqn:JL.
    - assert (l = j) by (destruct j, l; try discriminate JL; reflexivity). subst l.
      rewrite IJ, own_r_move by assumption. reflexivity.
    - destruct (slot_eqb i l) eqn:IL; rewrite ?E; unfold move, rr; clear -IL JL IJ;
        destruct i, j, l; try discriminate; reflexivity. }
  now rewrite !SC, !SR.
Qed.

Lemma move_back r : ring_rnd_ok C r -> move j i sj si (move i j si sj r) = r.
Proof.
  intros R.
  assert (CH : chal j (move i j si sj r) = chal i r) by (unfold chal; now rewrite challenge_move).
  assert (OC := own_c_move r _ R CH). assert (OR := own_r_move r _ R CH).
  assert (T : (rr i (move i j si sj r) + rc i (move i j si sj r) * si) mod q = rr_t r).
  { replace (rr i (move i j si sj r)) with (own_r i si r (chal i r))
      by (unfold move, rr; clear; destruct i; reflexivity).
    replace (rc i (move i j si sj r)) with (own_c i r (chal i r))
      by (unfold move, rc; clear; destruct i; reflexivity).
    unfold own_r. rewrite Z.add_mod_idemp_l by (pose proof (q_pos C CO); lia).
    rewrite <- Zplus_mod_idemp_r.
    replace (rr_t r - (own_c i r (chal i r) * si) mod q + (own_c i r (chal i r) * si) mod q) with (rr_t r) by ring.
    destruct R as (RT & _). now apply Z.mod_small. }
  set (r' := move i j si sj r) in *. unfold move at 1. cbv zeta. rewrite T, OC, OR. subst r'.
  clear T OC OR CH. unfold move, rc, rr. clear -IJ.
  destruct r, i, j; try discriminate IJ; reflexivity.
Qed.

End Ring.

Lemma slot_sym i j : slot_eqb i j = slot_eqb j i. Proof. destruct i, j; reflexivity. Qed.

Lemma signers_alike A1 A2 A3 m i j ki kj :
  three_keys A1 A2 A3 -> slot_eqb i j = false -> key_pair C ki -> key_pair C kj ->
  ed_public ki = key A1 A2 A3 i -> ed_public kj = key A1 A2 A3 j ->
  same_distribution C (ring_sign C ki A1 A2 A3 m) (ring_sign C kj A1 A2 A3 m).
Proof.
  intros T IJ (Pi & Ki) (Pj & Kj) Ei Ej. assert (JI : slot_eqb j i = false) by now rewrite slot_sym.
  rewrite Ei in Ki. rewrite Ej in Kj.
  exists (move A1 A2 A3 m i j (ed_secret ki) (ed_secret kj)), (move A1 A2 A3 m j i (ed_secret kj) (ed_secret ki)).
  split; [split|].
  - intros r R. split; [now apply move_ok|now apply move_back].
  - intros r R. split; [now apply move_ok|now apply move_back].
  - intros r R. rewrite (ring_sign_form A1 A2 A3 m i ki r T Ei).
    rewrite (ring_sign_form A1 A2 A3 m j kj _ T Ej). now apply form_move.
Qed.
End WithCrypto.
