(* When handling a record of the Socialist Millionaire Protocol panics, and how long the replies are. *)
From Verif Require Import Base BaseLemmas Types Crypto CryptoProofs Encoding EncodingProofs ClientProfile Messages Fragment
  KeyManager DataV3 Ratchet DataV4 AKE DAKE SMP SMP4 SMPProofs SMPHistProofs SMPSafeProofs SMP4HistProofs SpecWire SpecCurve SpecData3
  SpecData4 SpecSMP SpecSMP4 SpecDAKE SpecSession SpecCrash RingProofs MessagesProofs ClientProfileProofs CrashProofs.
From Coq Require Import Lia ZifyN ZifyNat.
Local Open Scope Z_scope.

Definition suffix (b v : bytes) : Prop := exists pre, v = pre ++ b.

Section WithCrypto.
Context (C : Crypto) (GO : smp4_group C).
Local Notation G := (c_ed_g C).
Local Notation q := (c_ed_q C).

Lemma suffix_refl v : suffix v v. Proof. exists []. reflexivity. Qed.
Lemma suffix_app a b v : suffix (a ++ b) v -> suffix b v.
Proof. intros [pre ->]. exists (pre ++ a). now rewrite app_assoc. Qed.

Lemma fixed_split n buf v rest : read_fixed n buf = Ok (v, rest) -> buf = v ++ rest /\ length v = n.
Proof.
  unfold read_fixed, take_bytes. destruct (Nat.ltb_spec (length buf) n); [discriminate|].
  intros H1. assert (E : v = firstn n buf /\ rest = skipn n buf) by (split; congruence). destruct E as [-> ->].
  split; [now rewrite firstn_skipn|]. rewrite firstn_length. lia.
Qed.
Lemma scalar_split buf s rest : read_ed448_scalar C buf = Ok (s, rest) ->
  exists enc, buf = enc ++ rest /\ length enc = 57%nat /\ s = Z.of_N (le_val enc) mod q.
Proof.
  unfold read_ed448_scalar. intros H. destruct (read_fixed 57 buf) as [[enc b]|x|] eqn:F; cbn [bind] in H; try discriminate.
  apply fixed_split in F. destruct F as [-> L]. unfold decode_scalar in H. destruct (all_zero enc); cbn [bind] in H; try discriminate.
  exists enc. assert (E : s = Z.of_N (le_val enc) mod q /\ rest = b) by (split; congruence). destruct E as [-> ->]. auto.
Qed.
Lemma point_split buf p rest : read_ed448_point C buf = Ok (p, rest) ->
  exists enc, buf = enc ++ rest /\ length enc = 57%nat /\ pt_decode C enc = Some p.
Proof.
  unfold read_ed448_point. intros H. destruct (read_fixed 57 buf) as [[enc b]|x|] eqn:F; cbn [bind] in H; try discriminate.
  apply fixed_split in F. destruct F as [-> L]. destruct (pt_decode C enc) as [p'|] eqn:D; try discriminate.
  exists enc. assert (E : p = p' /\ rest = b) by (split; congruence). destruct E as [-> ->]. auto.
Qed.
Lemma point_not_panic buf : read_ed448_point C buf <> Panic.
Proof. apply (read_ed448_point_safe C). Qed.
Lemma data_suffix buf v rest : read_data buf = Ok (v, rest) -> exists pre, buf = pre ++ rest.
Proof. intros H. apply read_data_exact in H. destruct H as [_ H]. rewrite H. now exists (write_data v). Qed.
Lemma data_not_panic buf : read_data buf <> Panic.
Proof. apply read_data_safe. Qed.

Definition zero_in (v : bytes) : Prop :=
  exists pre enc post, v = pre ++ enc ++ post /\ length enc = 57%nat /\ (Z.of_N (le_val enc) mod q = 0)%Z.

Lemma sc_panic buf v : suffix buf v -> read_ed448_scalar C buf = Panic -> zero_in v.
Proof.
  intros [pre ->] H. apply read_ed448_scalar_panic in H. destruct H as [rest ->].
  exists pre, (repeat x00 57), rest. split; [reflexivity|]. split; [reflexivity|].
  replace (le_val (repeat x00 57)) with 0%N by reflexivity. reflexivity.
Qed.
Lemma sc_next buf v s rest : suffix buf v -> read_ed448_scalar C buf = Ok (s, rest) -> suffix rest v /\ (s = 0 -> zero_in v).
Proof.
  intros S H. apply scalar_split in H. destruct H as (enc & -> & L & E). split; [now apply suffix_app in S|].
  intros Z0. destruct S as [pre ->]. exists pre, enc, rest. split; [reflexivity|]. split; [exact L|]. congruence.
Qed.
Lemma pt_next buf v p rest : suffix buf v -> read_ed448_point C buf = Ok (p, rest) -> suffix rest v.
Proof. intros S H. apply point_split in H. destruct H as (enc & -> & _). now apply suffix_app in S. Qed.

Lemma same_panic a b : same_scalar a b = Panic -> a = 0 \/ b = 0.
Proof.
  unfold same_scalar. destruct (compare_scalars a b) as [[]|x|] eqn:K; cbn [bind of_bool]; try discriminate.
  intros _. apply compare_panic in K. tauto.
Qed.
Lemma hash_zero u data : hash_to_scalar C u data = Ok 0 -> zero_scalar C u data.
Proof. intros H. apply hash_ok in H. unfold zero_scalar. now rewrite <- H. Qed.
Lemma secret_panic a b s x : smp4_secret C a b s x = Panic -> zero_scalar C x19 (x01 :: a ++ b ++ s ++ write_data x).
Proof.
  unfold smp4_secret. set (data := x01 :: _). intros H. destruct (prune (hwc C 57 USAGE_SMP_SECRET data)) as [w|e|] eqn:P; cbn [bind] in H; try discriminate.
  pose proof (kdf_length C 57 USAGE_SMP_SECRET data) as L.
  apply prune_panic in P; [|left; exact L]. change hwc with kdf in P. change USAGE_SMP_SECRET with x19 in P, L. rewrite firstn_all2 in P by lia.
  unfold zero_scalar. rewrite (le_val_zero _ P). apply Z.mod_0_l. pose proof (cr_q C GO). lia.
Qed.

(* reading *)
Ltac rd_sc H s b E F Z :=
  match type of H with
  | bind (read_ed448_scalar C ?buf) _ = Panic =>
      destruct (read_ed448_scalar C buf) as [[s b]|?|] eqn:E; cbn [bind] in H; [|discriminate H|left; exact (sc_panic _ _ F E)];
      let F' := fresh "F" in
      pose proof (sc_next _ _ _ _ F E) as [F' Z]; clear F; rename F' into F
  end.
Ltac rd_pt H p b E F :=
  match type of H with
  | bind (read_ed448_point C ?buf) _ = Panic =>
      destruct (read_ed448_point C buf) as [[p b]|?|] eqn:E; cbn [bind] in H; [|discriminate H|now destruct (point_not_panic buf)];
      let F' := fresh "F" in
      pose proof (pt_next _ _ _ _ F E) as F'; clear F; rename F' into F
  end.
Ltac ck H := match type of H with bind (of_bool ?b) _ = Panic =>
   let E := fresh "V" in destruct b eqn:E; cbn [of_bool bind] in H; [|discriminate H] end.
Ltac dn H := match type of H with bind (done ?b) _ = Panic =>
   destruct b; cbn [done bind] in H; [|discriminate H] end.

Definition panics ans rnd c t : Prop := smp4_peer C t \/ smp4_chance C ans rnd c t.

Lemma chance ans rnd c t u data : smp4_hashes C ans rnd c t u data -> zero_scalar C u data -> panics ans rnd c t.
Proof. intros H Z0. right. exists u, data. auto. Qed.

Ltac by_chance HH Z0 := refine (chance _ _ _ _ _ _ (HH _ _ _) Z0); cbn [In]; auto 20.

(* a hash compared with a number that was read *)
Ltac hs H HH Z :=
  match type of H with
  | bind (hash_pt C ?u ?a) _ = Panic =>
      let h := fresh "h" in let E := fresh "E" in unfold hash_pt at 1 in H;
      destruct (hash_to_scalar C u (pt_encode a)) as [h|?|] eqn:E; cbn [bind] in H;
        [|discriminate H|by_chance HH (hash_panic C GO _ _ E)];
      match type of H with
      | bind (same_scalar ?x ?y) _ = Panic =>
          destruct (same_scalar x y) as [[]|?|] eqn:?; cbn [bind] in H; [|discriminate H|];
          [|match goal with S : same_scalar _ _ = Panic |- _ => apply same_panic in S; destruct S as [S|S] end;
            subst; (left; now apply Z) || by_chance HH (hash_zero _ _ E)]
      | _ => idtac
      end
  | bind (hash_pt2 C ?u ?a ?b) _ = Panic =>
      let h := fresh "h" in let E := fresh "E" in unfold hash_pt2 at 1 in H;
      destruct (hash_to_scalar C u (pt_encode a ++ pt_encode b)) as [h|?|] eqn:E; cbn [bind] in H;
        [|discriminate H|by_chance HH (hash_panic C GO _ _ E)];
      match type of H with
      | bind (same_scalar ?x ?y) _ = Panic =>
          destruct (same_scalar x y) as [[]|?|] eqn:?; cbn [bind] in H; [|discriminate H|];
          [|match goal with S : same_scalar _ _ = Panic |- _ => apply same_panic in S; destruct S as [S|S] end;
            subst; (left; now apply Z) || by_chance HH (hash_zero _ _ E)]
      | _ => idtac
      end
  end.

Lemma message4_4_panic ans rnd c t : smp4_message_4 C c t = Panic -> panics ans rnd c t.
Proof.
  unfold smp4_message_4. intros H. destruct (s4_state c) as [| | |G3b DP DQ a3] eqn:ST; try discriminate.
  pose proof (suffix_refl (tlv_value t)) as F.
  rd_pt H Rb b1 E1 F. rd_sc H cr b2 E2 F Z2. rd_sc H d7 b3 E3 F Z3. dn H. ck H.
  assert (HH : forall u data, In (u, data) [(x08, pt_encode (pt_add C (pt_mul C G d7) (pt_mul C G3b cr)) ++
        pt_encode (pt_add C (pt_mul C DQ d7) (pt_mul C Rb cr)))] -> smp4_hashes C ans rnd c t u data).
  { intros u data I. unfold smp4_hashes. rewrite ST. exists Rb, cr, d7. split; [|exact I].
    cbn [read_items]. rewrite E1. cbn [bind]. rewrite E2. cbn [bind]. rewrite E3. reflexivity. }
  hs H HH Z2. destruct (same_pt _ _); discriminate.
Qed.
Lemma message4_3_panic ans rnd c t : smp4_message_3 C rnd c t = Panic -> panics ans rnd c t.
Proof.
  unfold smp4_message_3. intros H. destruct (s4_state c) as [| |G3a G2 G3 b3 Pb Qb|] eqn:ST; try discriminate.
  pose proof (suffix_refl (tlv_value t)) as F.
  rd_pt H Pa b1 E1 F. rd_pt H Qa b2 E2 F. rd_sc H cp b4 E3 F Z3. rd_sc H d5 b5 E4 F Z4. rd_sc H d6 b6 E5 F Z5.
  rd_pt H Ra b7 E6 F. rd_sc H cr b8 E7 F Z7. rd_sc H d7 b9 E8 F Z8. dn H. ck H. ck H. ck H.
  pose (DQ := pt_add C Qa (pt_neg C Qb)).
  assert (HH : forall u data, In (u, data)
     [(x06, pt_encode (pt_add C (pt_mul C G3 d5) (pt_mul C Pa cp)) ++
            pt_encode (pt_add C (pt_add C (pt_mul C G d5) (pt_mul C G2 d6)) (pt_mul C Qa cp)));
      (x07, pt_encode (pt_add C (pt_mul C G d7) (pt_mul C G3a cr)) ++ pt_encode (pt_add C (pt_mul C DQ d7) (pt_mul C Ra cr)));
      (x08, pt_encode (pt_mul C G (s4_r7 rnd)) ++ pt_encode (pt_mul C DQ (s4_r7 rnd)))] -> smp4_hashes C ans rnd c t u data).
  { intros u data I. unfold smp4_hashes. rewrite ST. exists Pa, Qa, cp, d5, d6, Ra, cr, d7. split; [|exact I].
    cbn [read_items]. rewrite E1. cbn [bind]. rewrite E2. cbn [bind]. rewrite E3. cbn [bind]. rewrite E4. cbn [bind].
    rewrite E5. cbn [bind]. rewrite E6. cbn [bind]. rewrite E7. cbn [bind]. rewrite E8. reflexivity. }
  change (pt_sub C Qa Qb) with DQ in H.
  hs H HH Z3. hs H HH Z7. hs H HH Z7. discriminate.
Qed.
Lemma message4_2_panic ans rnd c t : smp4_message_2 C rnd c t = Panic -> panics ans rnd c t.
Proof.
  unfold smp4_message_2. intros H. destruct (s4_state c) as [|x a2 a3| |] eqn:ST; try discriminate.
  pose proof (suffix_refl (tlv_value t)) as F.
  rd_pt H G2b b1 E1 F. rd_sc H c2 b2 E2 F Z2. rd_sc H d2 b3 E3 F Z3. rd_pt H G3b b4 E4 F. rd_sc H c3 b5 E5 F Z5.
  rd_sc H d3 b6 E6 F Z6. rd_pt H Pb b7 E7 F. rd_pt H Qb b8 E8 F. rd_sc H cp b9 E9 F Z9. rd_sc H d5 b10 E10 F Z10.
  rd_sc H d6 b11 E11 F Z11. dn H. ck H. ck H.
  pose (G2 := pt_mul C G2b a2). pose (G3 := pt_mul C G3b a3).
  pose (DQ := pt_add C (pt_add C (pt_mul C G (s4_r4 rnd)) (pt_mul C G2 (x mod q))) (pt_neg C Qb)).
  assert (HH : forall u data, In (u, data)
     [(x03, pt_encode (pt_add C (pt_mul C G d2) (pt_mul C G2b c2))); (x04, pt_encode (pt_add C (pt_mul C G d3) (pt_mul C G3b c3)));
      (x05, pt_encode (pt_add C (pt_mul C G3 d5) (pt_mul C Pb cp)) ++
            pt_encode (pt_add C (pt_add C (pt_mul C G d5) (pt_mul C G2 d6)) (pt_mul C Qb cp)));
      (x06, pt_encode (pt_mul C G3 (s4_r5 rnd)) ++ pt_encode (pt_add C (pt_mul C G (s4_r5 rnd)) (pt_mul C G2 (s4_r6 rnd))));
      (x07, pt_encode (pt_mul C G (s4_r7 rnd)) ++ pt_encode (pt_mul C DQ (s4_r7 rnd)))] -> smp4_hashes C ans rnd c t u data).
  { intros u data I. unfold smp4_hashes. rewrite ST. exists G2b, c2, d2, G3b, c3, d3, Pb, Qb, cp, d5, d6. split; [|exact I].
    cbn [read_items]. rewrite E1. cbn [bind]. rewrite E2. cbn [bind]. rewrite E3. cbn [bind]. rewrite E4. cbn [bind].
    rewrite E5. cbn [bind]. rewrite E6. cbn [bind]. rewrite E7. cbn [bind]. rewrite E8. cbn [bind]. rewrite E9. cbn [bind].
    rewrite E10. cbn [bind]. rewrite E11. reflexivity. }
  hs H HH Z2. hs H HH Z5. change (pt_mul C G2b a2) with G2 in H. change (pt_mul C G3b a3) with G3 in H. ck H. ck H.
  hs H HH Z9. unfold pt_sub in H.
  change (pt_add C (pt_add C (pt_mul C G (s4_r4 rnd)) (pt_mul C G2 (x mod q))) (pt_neg C Qb)) with DQ in H.
  hs H HH Z9. hs H HH Z9. discriminate.
Qed.
Lemma message4_1_panic ans rnd c t : smp4_message_1 C ans rnd c t = Panic -> panics ans rnd c t.
Proof.
  unfold smp4_message_1. intros H. destruct (s4_state c) as [| | |] eqn:ST; try discriminate.
  destruct (read_data (tlv_value t)) as [[question rest]|e|] eqn:E0; cbn [bind] in H; [|discriminate|now destruct (data_not_panic (tlv_value t))].
  assert (F : suffix rest (tlv_value t)) by (apply data_suffix in E0; exact E0).
  rd_pt H G2a b1 E1 F. ck H. rd_sc H c2 b2 E2 F Z2. rd_sc H d2 b3 E3 F Z3. rd_pt H G3a b4 E4 F. ck H. rd_sc H c3 b5 E5 F Z5.
  rd_sc H d3 b6 E6 F Z6. dn H.
  assert (RI : read_items C [true; false; false; true; false; false] rest
        = Ok ([Pt G2a; Sc c2; Sc d2; Pt G3a; Sc c3; Sc d3], [])).
  { cbn [read_items]. rewrite E1. cbn [bind]. rewrite E2. cbn [bind]. rewrite E3. cbn [bind]. rewrite E4. cbn [bind].
    rewrite E5. cbn [bind]. rewrite E6. reflexivity. }
  assert (HH : forall u data, In (u, data)
     [(x01, pt_encode (pt_add C (pt_mul C G d2) (pt_mul C G2a c2))); (x02, pt_encode (pt_add C (pt_mul C G d3) (pt_mul C G3a c3)))] ->
     smp4_hashes C ans rnd c t u data).
  { intros u data I. unfold smp4_hashes. rewrite ST. exists question, rest, G2a, c2, d2, G3a, c3, d3. auto. }
  hs H HH Z2. hs H HH Z5. destruct (ans question) as [secret|] eqn:AN; [|discriminate]. cbv zeta in H.
  pose (G2 := pt_mul C G2a (s4_2 rnd)). pose (G3 := pt_mul C G3a (s4_3 rnd)).
  assert (HI : forall u data, In (u, data)
     [(x03, pt_encode (pt_mul C G (s4_r2 rnd))); (x04, pt_encode (pt_mul C G (s4_r3 rnd)));
      (x19, x01 :: s4_them c ++ s4_us c ++ s4_ssid c ++ write_data secret);
      (x05, pt_encode (pt_mul C G3 (s4_r5 rnd)) ++ pt_encode (pt_add C (pt_mul C G (s4_r5 rnd)) (pt_mul C G2 (s4_r6 rnd))))] ->
     smp4_hashes C ans rnd c t u data).
  { intros u data I. unfold smp4_hashes. rewrite ST. exists question, rest, G2a, c2, d2, G3a, c3, d3. split; [exact E0|].
    split; [exact RI|]. right. exists secret. auto. }
  change (pt_mul C G2a (s4_2 rnd)) with G2 in H. change (pt_mul C G3a (s4_3 rnd)) with G3 in H.
  hs H HI Z2. hs H HI Z2. ck H. ck H.
  destruct (smp4_secret C (s4_them c) (s4_us c) (s4_ssid c) secret) as [y|e|] eqn:SE; cbn [bind] in H; [|discriminate|].
  2: { apply secret_panic in SE. eapply chance; [|exact SE]. apply HI. cbn [In]. auto. }
  ck H. ck H. hs H HI Z2. discriminate.
Qed.

Lemma smp4_handle_panic ans rnd c t c' : is_smp4_tlv t = true -> smp4_handle C ans rnd c t = (c', Panic) ->
  smp4_peer C t \/ smp4_chance C ans rnd c t.
Proof.
  intros T. unfold smp4_handle. intros H.
  assert (D : smp4_dispatch C ans rnd c t = Panic).
  { destruct (smp4_dispatch C ans rnd c t) as [[c1 r]|e|]; [discriminate H|discriminate H|reflexivity]. }
  clear H. revert D. change (smp4_dispatch C ans rnd c t = Panic -> panics ans rnd c t).
  unfold smp4_dispatch. cbv zeta.
  destruct (_ =? TLV_SMP_ABORT)%N eqn:T1; [unfold smp4_abort; discriminate|].
  destruct (_ =? TLV_SMP_1)%N eqn:T2.
  { intros H. apply message4_1_panic. destruct (smp4_message_1 _ _ _ _ _) as [[st r]|e|]; [discriminate H|discriminate H|reflexivity]. }
  destruct (_ =? TLV_SMP_2)%N eqn:T3.
  { intros H. apply message4_2_panic. destruct (smp4_message_2 _ _ _ _) as [[st r]|e|]; [discriminate H|discriminate H|reflexivity]. }
  destruct (_ =? TLV_SMP_3)%N eqn:T4.
  { intros H. apply message4_3_panic. destruct (smp4_message_3 _ _ _ _) as [[st r]|e|]; [discriminate H|discriminate H|reflexivity]. }
  destruct (_ =? TLV_SMP_4)%N eqn:T5.
  { intros H. apply message4_4_panic. destruct (smp4_message_4 _ _ _) as [[]|e|]; [discriminate H|discriminate H|reflexivity]. }
  exfalso. unfold is_smp4_tlv in T. cbn [existsb] in T. rewrite T1, T2, T3, T4, T5 in T. discriminate.
Qed.

(** ** Replies *)

Lemma wp_len p : length (wp p) = 57%nat.
Proof. apply pt_encode_length. Qed.
Lemma ws_len s : length (ws s) = 57%nat.
Proof. apply le_bytes_length. Qed.

Lemma smp4_reply_len ans rnd c t c' r : smp4_handle C ans rnd c t = (c', Ok (Some r)) ->
  (length (tlv_value r) <= 627)%nat.
Proof.
  unfold smp4_handle. destruct (smp4_dispatch C ans rnd c t) as [[c1 o]|e|] eqn:D; try discriminate.
  intros H. assert (O : o = Some r) by congruence. subst o. clear H. revert D. unfold smp4_dispatch. cbv zeta.
  destruct (_ =? TLV_SMP_ABORT)%N.
  { unfold smp4_abort. intros H. assert (E : r = abort_tlv) by congruence. subst r. cbn. lia. }
  destruct (_ =? TLV_SMP_1)%N.
  { intros H. bind_inv H. assert (R : t0 = r) by congruence. subst t0. clear H. revert E. unfold smp4_message_1.
    destruct (s4_state c); try discriminate. intros E. repeat bind_inv E.
    match type of E with match ?a with _ => _ end = _ => destruct a; [|discriminate E] end. repeat bind_inv E. cbv zeta in E.
    match type of E with Ok (_, ?u) = Ok _ => assert (R : r = u) by congruence end. rewrite R. clear. cbn [tlv_value].
    rewrite !app_length, ?wp_len, ?ws_len. lia. }
  destruct (_ =? TLV_SMP_2)%N.
  { intros H. bind_inv H. assert (R : t0 = r) by congruence. subst t0. clear H. revert E. unfold smp4_message_2.
    destruct (s4_state c); try discriminate. intros E. repeat bind_inv E. cbv zeta in E.
    match type of E with Ok (_, ?u) = Ok _ => assert (R : r = u) by congruence end. rewrite R. clear. cbn [tlv_value].
    rewrite !app_length, ?wp_len, ?ws_len. lia. }
  destruct (_ =? TLV_SMP_3)%N.
  { intros H. bind_inv H. assert (R : t0 = r) by congruence. subst t0. clear H. revert E. unfold smp4_message_3.
    destruct (s4_state c); try discriminate. intros E. repeat bind_inv E. cbv zeta in E.
    match type of E with Ok (_, ?u) = Ok _ => assert (R : r = u) by congruence end. rewrite R. clear. cbn [tlv_value].
    rewrite !app_length, ?wp_len, ?ws_len. lia. }
  destruct (_ =? TLV_SMP_4)%N; [|discriminate].
  destruct (smp4_message_4 _ _ _) as [[]|e|]; discriminate.
Qed.

End WithCrypto.

(** ** OTRv3 *)

Section V3.
Context (C : Crypto) (GO : smp_group C).

Lemma smp_handle_panic h rnd c t c' : state_ok C c -> is_smp3_tlv t = true -> smp_handle C h rnd c t = (c', Panic) ->
  sh_key h = None.
Proof.
  intros SO T H. destruct (sh_key h) as [k|] eqn:K; [|reflexivity].
  destruct (handle_cases C GO h rnd c t k SO K T) as (c1 & r & E & _). rewrite H in E. discriminate E.
Qed.
Lemma smp_handle_clean h rnd c t c' r : clean C c -> smp_handle C h rnd c t = (c', r) -> r <> Panic ->
  clean C c' /\ sm_status c' <> SmpInitial.
Proof.
  intros CL H NP. destruct (handle_any C GO h rnd c t c' r (proj1 CL) H NP) as (o & _ & HD).
  pose proof (handled_clean C c t c' o CL HD) as CL'. split; [exact CL'|].
  destruct HD as (_ & _ & _ & [(m & _ & _ & _ & NI & _)|[(_ & _ & [[S _]|S] & _)|(_ & [why S] & _)]]); try congruence.
  destruct CL' as [_ CL']. apply CL' in NI. congruence.
Qed.

Lemma byte_len_le v n : (v < 2 ^ N.of_nat (8 * n))%N -> v <> 0%N -> (byte_len v <= n)%nat.
Proof.
  intros V NZ. unfold byte_len. 
  assert (S : (N.size v <= N.of_nat (8 * n))%N).
  { rewrite N.size_log2 by exact NZ. apply N.le_succ_l. apply N.log2_lt_pow2; lia. }
  lia.
Qed.
Lemma mpi_len v : (v < 2 ^ 1536)%N -> (length (write_mpi v) <= 196)%nat.
Proof.
  intros V. unfold write_mpi. destruct (N.eqb_spec v 0) as [->|NZ]; [cbn; lia|].
  cbv zeta. rewrite app_length. unfold biguint_to_bytes_be. destruct (N.eqb_spec v 0); [contradiction|].
  rewrite be_bytes_length. pose proof (byte_len_le v 192 V NZ). unfold write_u32. rewrite be_bytes_length. lia.
Qed.
Lemma mpis_len l : Forall (fun v => v < 2 ^ 1536)%N l -> (length (write_mpi_sequence l) <= 4 + 196 * length l)%nat.
Proof.
  intros F. unfold write_mpi_sequence. rewrite app_length. unfold write_u32. rewrite be_bytes_length.
  enough (length (concat (map write_mpi l)) <= 196 * length l)%nat by lia.
  induction F as [|v l V F IH]; [cbn; lia|]. cbn [map concat length]. rewrite app_length.
  pose proof (mpi_len v V). lia.
Qed.

Context (PB : (c_dh_p C < 2 ^ 1536)%N).

Lemma small_mm v : (mm C v < 2 ^ 1536)%N.
Proof. unfold mm. eapply N.lt_trans; [|exact PB]. apply N.mod_lt, (p_nz C GO). Qed.
Lemma small_pw a e : (pw C a e < 2 ^ 1536)%N.
Proof. unfold pw. rewrite modpow_spec by apply (p_nz C GO). eapply N.lt_trans; [|exact PB]. apply N.mod_lt, (p_nz C GO). Qed.
Lemma small_hash b : (be_val (sha256 C b) < 2 ^ 1536)%N.
Proof.
  eapply N.lt_le_trans; [apply be_val_bound|]. rewrite sha256_length.
  change (256 ^ N.of_nat 32)%N with (2 ^ 256)%N. apply N.pow_le_mono_r; lia.
Qed.
Lemma small_d a b c : (smp_d C a b c < 2 ^ 1536)%N.
Proof.
  unfold smp_d. pose proof (p_pos C GO) as P.
  assert (Q0 : dh_q C <> 0%N).
  { destruct GO as (_ & Q & _). intros E. rewrite E in Q. apply Znumtheory.prime_ge_2 in Q. lia. }
  eapply N.lt_trans; [apply N.mod_lt, Q0|]. eapply N.le_lt_trans; [|exact PB]. unfold dh_q. 
  apply N.div_le_upper_bound; lia.
Qed.

Ltac small := repeat first [apply Forall_nil | apply Forall_cons; [first [apply small_mm|apply small_pw|apply small_hash|apply small_d]|]].

Lemma message_reply_len h rnd c t o r : smp_dispatch C h rnd c t = Ok o ->
  (exists st, o = SmpReply st r) \/ o = SmpSuccess (Some r) \/ o = SmpFailed (Some r) -> (length (tlv_value r) <= 2160)%nat.
Proof.
  unfold smp_dispatch. intros H O.
  destruct (_ || _).
  { unfold smp_message_1 in H. destruct (sm_state c); try discriminate. destruct (smp1_question t) as [question buf].
    apply bind_ok in H. destruct H as ([mpis rest] & _ & H).
    destruct mpis as [|g2a [|c2 [|D2 [|g3a [|c3 [|D3 [|? ?]]]]]]]; try discriminate.
    do 7 (apply bind_ok in H; destruct H as (? & _ & H)).
    destruct (sh_answer h question).
    2: { destruct O as [[st O]|[O|O]]; congruence. }
    apply bind_ok in H; destruct H as (fp & _ & H). cbv zeta in H.
    match type of H with Ok (SmpReply _ ?u) = _ => assert (R : r = u) by (destruct O as [[st O]|[O|O]]; congruence) end.
    rewrite R. cbn [tlv_value]. eapply Nat.le_trans; [apply mpis_len; small|]. cbn [length]. lia. }
  destruct (_ =? TLV_SMP_2)%N.
  { unfold smp_message_2 in H. destruct (sm_state c); try discriminate.
    apply bind_ok in H. destruct H as ([mpis rest] & _ & H).
    destruct mpis as [|g2b [|c2 [|D2 [|g3b [|c3 [|D3 [|Pb [|Qb [|cP [|D5 [|D6 [|? ?]]]]]]]]]]]]; try discriminate.
    do 13 (apply bind_ok in H; destruct H as (? & _ & H)). cbv zeta in H.
    match type of H with Ok (SmpReply _ ?u) = _ => assert (R : r = u) by (destruct O as [[st O]|[O|O]]; congruence) end.
    rewrite R. cbn [tlv_value]. eapply Nat.le_trans; [apply mpis_len; small|]. cbn [length]. lia. }
  destruct (_ =? TLV_SMP_3)%N.
  { unfold smp_message_3 in H. destruct (sm_state c); try discriminate.
    apply bind_ok in H. destruct H as ([mpis rest] & _ & H).
    destruct mpis as [|Pa [|Qa [|cP [|D5 [|D6 [|Ra [|cR [|D7 [|? ?]]]]]]]]]; try discriminate.
    do 10 (apply bind_ok in H; destruct H as (? & _ & H)). cbv zeta in H.
    match type of H with Ok (if _ then SmpSuccess (Some ?u) else _) = _ =>
      assert (R : r = u) by (destruct O as [[st O]|[O|O]]; destruct (_ =? _)%N in H; congruence) end.
    rewrite R. cbn [tlv_value]. eapply Nat.le_trans; [apply mpis_len; small|]. cbn [length]. lia. }
  destruct (_ =? TLV_SMP_4)%N.
  { unfold smp_message_4 in H. destruct (sm_state c); try discriminate.
    apply bind_ok in H. destruct H as ([mpis rest] & _ & H).
    destruct mpis as [|Rb [|cR [|D7 [|? ?]]]]; try discriminate.
    do 3 (apply bind_ok in H; destruct H as (? & _ & H)). cbv zeta in H.
    exfalso. destruct O as [[st O]|[O|O]]; destruct (_ =? _)%N in H; congruence. }
  exfalso. destruct (_ =? TLV_SMP_ABORT)%N; destruct O as [[st O]|[O|O]]; congruence.
Qed.
Lemma smp_reply_len h rnd c t c' r : smp_handle C h rnd c t = (c', Ok (Some r)) -> (length (tlv_value r) <= 2160)%nat.
Proof.
  unfold smp_handle. destruct (smp_dispatch C h rnd c t) as [o|x|] eqn:D; [|destruct x|]; intros H; try discriminate H;
    try (assert (R : r = abort_tlv) by congruence; rewrite R; cbn; lia).
  destruct o as [st u|u|u|[]]; try discriminate H.
  - apply (message_reply_len h rnd c t _ r D). left. exists st. congruence.
  - apply (message_reply_len h rnd c t _ r D). right. left. congruence.
  - apply (message_reply_len h rnd c t _ r D). right. right. congruence.
  - assert (R : r = abort_tlv) by congruence. rewrite R. cbn. lia.
Qed.

End V3.

Lemma write_tlv_fits t : (length (tlv_value t) <= 2160)%nat -> write_tlv t = Ok (tlv_bytes t).
Proof. intros L. unfold write_tlv. destruct (N.ltb_spec (N.of_nat (length (tlv_value t))) 65536); [reflexivity|lia]. Qed.
