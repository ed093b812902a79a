From Verif Require Import Base BaseLemmas Types Crypto CryptoProofs Encoding EncodingProofs ClientProfile
  SpecWire.
Local Open Scope N_scope.


Lemma parse_encode_versions vs :
  Forall (fun v => v = V3 \/ v = V4) vs ->
  parse_versions (encode_versions vs) = vs /\ length (encode_versions vs) = length vs.
Proof.
  induction 1 as [|v vs [-> | ->] _ [IH1 IH2]]; cbn; [auto| |]; now rewrite IH1, IH2.
Qed.

Lemma parse_versions_ok d :
  Forall (fun v => v = V3 \/ v = V4) (parse_versions d) /\ (length (parse_versions d) <= length d)%nat.
Proof.
  induction d as [|c d [IH1 IH2]]; cbn [parse_versions]; [split; [constructor|cbn; lia]|].
  destruct (byte_eqb c x33); [|destruct (byte_eqb c x34)];
    (split; [try constructor; auto | cbn [length]; lia]).
Qed.

(** ** Selecting the fields of one kind *)


Definition sel_ok {A} (a : option A) (l : list A) (a' : option A) : Prop :=
  match a with
  | Some x => l = [] /\ a' = Some x
  | None => (l = [] /\ a' = None) \/ exists x, l = [x] /\ a' = Some x
  end.
Definition vsel_ok (v : list version) (l : list (list version)) (v' : list version) : Prop :=
  match v with
  | _ :: _ => l = [] /\ v' = v
  | [] => exists k, (l = repeat [] k /\ v' = []) \/ (l = repeat [] k ++ [v'] /\ v' <> [])
  end.

Lemma sel_ok_nil {A} (a a' : option A) : sel_ok a [] a' <-> a' = a.
Proof.
  destruct a; cbn; split.
  - tauto.
  - auto.
  - intros [[_ ->]|(x & E & _)]; [reflexivity|discriminate].
  - auto.
Qed.
Lemma sel_ok_cons_none {A} (x : A) l a' : sel_ok None (x :: l) a' <-> sel_ok (Some x) l a'.
Proof.
  cbn. split.
  - intros [[E _]|(y & E & ->)]; [discriminate|]. injection E as -> ->. auto.
  - intros [-> ->]. right. eauto.
Qed.
Lemma sel_ok_cons_some {A} (y x : A) l a' : ~ sel_ok (Some y) (x :: l) a'.
Proof. cbn. intros [E _]. discriminate. Qed.

Lemma vsel_ok_nil v v' : vsel_ok v [] v' <-> v' = v.
Proof.
  destruct v as [|x v]; cbn; split.
  - intros (k & [[_ ->]|[E _]]); [reflexivity|]. destruct (repeat [] k); discriminate.
  - intros ->. exists O. auto.
  - tauto.
  - auto.
Qed.
Lemma vsel_ok_cons x l v' : vsel_ok [] (x :: l) v' <-> vsel_ok x l v'.
Proof.
  destruct x as [|y x]; cbn; split.
  - intros (k & [[E ->]|[E H]]).
    + destruct k as [|k]; [discriminate|]. injection E as ->. exists k. auto.
    + destruct k as [|k]; cbn in E; inversion E; subst; [congruence|]. exists k. auto.
  - intros (k & [[-> ->]|[-> H]]); exists (S k); auto.
  - intros (k & [[E ->]|[E H]]).
    + destruct k; discriminate.
    + destruct k as [|k]; cbn in E; inversion E; subst; auto.
  - intros [-> ->]. exists O. right. split; [reflexivity|discriminate].
Qed.

Definition collected_rel (c : collected) (fs : list field) (c' : collected) : Prop :=
  sel_ok (co_owner c) (flat_map sel_owner fs) (co_owner c')
  /\ sel_ok (co_identity c) (flat_map sel_identity fs) (co_identity c')
  /\ sel_ok (co_forging c) (flat_map sel_forging fs) (co_forging c')
  /\ vsel_ok (co_versions c) (flat_map sel_versions fs) (co_versions c')
  /\ sel_ok (co_expiration c) (flat_map sel_expiration fs) (co_expiration c')
  /\ sel_ok (co_legacy c) (flat_map sel_legacy fs) (co_legacy c')
  /\ sel_ok (co_transitional c) (flat_map sel_transitional fs) (co_transitional c').

Lemma collect_fields_rel fs : forall c c',
  collect_fields c fs = Ok c' <-> collected_rel c fs c'.
Proof.
  induction fs as [|f fs IH]; intros c c'.
  - cbn [collect_fields]. unfold collected_rel. cbn [flat_map].
    rewrite !sel_ok_nil, vsel_ok_nil. destruct c, c'; cbn. split.
    + intros H. injection H. intuition congruence.
    + intros (-> & -> & -> & -> & -> & -> & ->). reflexivity.
  - cbn [collect_fields]. destruct c as [o i g v e l t].
    destruct f; cbn [collect_field co_owner co_identity co_forging co_versions co_expiration co_legacy
      co_transitional];
    match goal with |- context [bind (match ?o with _ => _ end) _] => destruct o end;
    cbn [bind]; rewrite ?IH; unfold collected_rel;
    cbn [flat_map sel_owner sel_identity sel_forging sel_versions sel_expiration sel_legacy
      sel_transitional app co_owner co_identity co_forging co_versions co_expiration co_legacy
      co_transitional]; rewrite ?sel_ok_cons_none, ?vsel_ok_cons; try tauto;
    (split; [discriminate|]); intros Hc; exfalso.
    all: try (repeat match goal with H : _ /\ _ |- _ => destruct H end;
         match goal with
         | H : sel_ok (Some _) (_ :: _) _ |- _ => exact (sel_ok_cons_some _ _ _ _ H)
         | H : vsel_ok (_ :: _) (_ :: _) _ |- _ => destruct H; discriminate
         end).
Qed.

(** ** What an accepted payload looks like *)



Section WithCrypto.
Context (C : Crypto).


Lemma contains_version_in v l : contains_version v l = true <-> In v l.
Proof.
  unfold contains_version. rewrite existsb_exists. split.
  - intros (x & Hx & E). destruct v, x; cbn in E; try discriminate; auto.
    apply N.eqb_eq in E. now subst.
  - intros H. exists v. split; [assumption|]. destruct v; cbn; auto. apply N.eqb_refl.
Qed.

Lemma without_transitional_eq fs :
  filter (fun f => negb (is_transitional f)) fs = without_transitional fs.
Proof. unfold without_transitional. apply filter_ext. now intros []. Qed.

Lemma ok_tt (r : res unit) u : r = Ok u -> r = Ok tt.
Proof. now destruct u. Qed.

Lemma payload_validate_iff p cp :
  payload_validate C p = Ok cp <-> payload_accepted C p cp.
Proof.
  unfold payload_validate, payload_accepted, only, none. set (fs := pl_fields p). split.
  - intros H. bind_inv H. apply collect_fields_rel in E.
    destruct E as (E1 & E2 & E3 & E4 & E5 & E6 & E7).
    cbn [collected0 co_owner co_identity co_forging co_versions co_expiration co_legacy
         co_transitional sel_ok vsel_ok] in *.
    destruct (co_owner x) as [o|]; [|discriminate].
    destruct (co_identity x) as [i|]; [|discriminate].
    destruct (co_forging x) as [g|]; [|discriminate].
    destruct (co_versions x) as [|v vs]; [discriminate|].
    destruct (co_expiration x) as [e|]; [|discriminate].
    destruct E1 as [[_ ?]|(? & E1 & X)]; [discriminate|injection X as <-].
    destruct E2 as [[_ ?]|(? & E2 & X)]; [discriminate|injection X as <-].
    destruct E3 as [[_ ?]|(? & E3 & X)]; [discriminate|injection X as <-].
    destruct E5 as [[_ ?]|(? & E5 & X)]; [discriminate|injection X as <-].
    destruct E4 as (k & [[_ ?]|[E4 _]]); [discriminate|].
    destruct (contains_version V3 (v :: vs) && negb (is_some (co_transitional x))) eqn:A; [discriminate|].
    destruct (co_legacy x) as [l|], (co_transitional x) as [t|]; cbn [is_some Bool.eqb negb] in *;
      try discriminate.
    + bind_inv H. bind_inv H. injection H as <-. cbn.
      destruct E6 as [[_ ?]|(? & E6 & X)]; [discriminate|injection X as <-].
      destruct E7 as [[_ ?]|(? & E7 & X)]; [discriminate|injection X as <-].
      apply ok_tt in E, E0. rewrite without_transitional_eq in E0. repeat split; auto; [discriminate|eauto|]. exists t. auto.
    + bind_inv H. injection H as <-. cbn.
      destruct E6 as [[E6 _]|(? & _ & X)]; [|discriminate].
      destruct E7 as [[E7 _]|(? & _ & X)]; [|discriminate].
      apply ok_tt in E. repeat split; auto; [discriminate|eauto|].
      intros Hin. change (In V3 (v :: vs)) in Hin. apply contains_version_in in Hin.
      rewrite Hin in A. discriminate.
  - intros (E1 & E2 & E3 & E5 & Hv & (k & E4) & S & L).
    destruct cp as [o i g vs e lg]. cbn in *.
    set (tr := match flat_map sel_transitional fs with [s] => Some s | _ => None end).
    assert (CF : collect_fields collected0 fs = Ok (mkCollected (Some o) (Some i) (Some g) vs (Some e) lg tr)).
    { apply collect_fields_rel. unfold collected_rel, collected0. cbn.
      repeat split; try (right; eauto; fail).
      - exists k. auto.
      - destruct lg; [destruct L as (L1 & _); right; eauto|destruct L as (L1 & _); left; auto].
      - unfold tr. destruct lg.
        + destruct L as (_ & sg & L2 & _). rewrite L2. right. eauto.
        + destruct L as (_ & L2 & _). rewrite L2. left. auto. }
    rewrite CF. cbn [bind co_owner co_identity co_forging co_versions co_expiration co_legacy
         co_transitional].
    destruct vs as [|v vs]; [congruence|].
    destruct lg as [lg|].
    + destruct L as (L1 & sg & L2 & L3). unfold tr. rewrite L2. cbn [is_some negb Bool.eqb].
      rewrite andb_false_r, S. cbn [bind]. rewrite without_transitional_eq. rewrite L3. reflexivity.
    + destruct L as (L1 & L2 & L3). unfold tr. rewrite L2. cbn [is_some negb Bool.eqb].
      destruct (contains_version V3 (v :: vs)) eqn:A.
      * apply contains_version_in in A. tauto.
      * cbn [andb]. rewrite S. reflexivity.
Qed.

Lemma eddsa_validate_safe k s m : eddsa_validate C k s m <> Panic.
Proof.
  unfold eddsa_validate. destruct (pt_decode C (edsig_R s)); [|discriminate].
  apply bind_no_panic; [unfold of_bool; destruct (pt_verify C p); discriminate|]. intros _ _.
  destruct (_ || _); [discriminate|]. unfold of_bool. destruct (ct_compare _ _); discriminate.
Qed.
Lemma dsa_validate_safe k s m : dsa_validate C k s m <> Panic.
Proof. unfold dsa_validate, of_bool. destruct (c_dsa_verify _ _ _ _); discriminate. Qed.

Lemma collect_fields_safe fs : forall c, collect_fields c fs <> Panic.
Proof.
  induction fs as [|f fs IH]; intros c; cbn [collect_fields]; [discriminate|].
  apply bind_no_panic; [|intros; apply IH].
  destruct f; cbn [collect_field];
    match goal with |- match ?o with _ => _ end <> _ => destruct o end; discriminate.
Qed.

Lemma payload_validate_safe p : payload_validate C p <> Panic.
Proof.
  unfold payload_validate. apply bind_no_panic; [apply collect_fields_safe|]. intros c _.
  destruct (co_owner c), (co_identity c), (co_forging c), (co_versions c), (co_expiration c);
    try discriminate.
  destruct (_ && _); [discriminate|]. destruct (negb _); [discriminate|].
  apply bind_no_panic; [apply eddsa_validate_safe|]. intros _ _.
  destruct (co_legacy c), (co_transitional c); try discriminate.
  apply bind_no_panic; [apply dsa_validate_safe|]. discriminate.
Qed.

(** ** The wire *)


Lemma read_field_write f rest : field_ok C f -> read_field C (write_field f ++ rest) = Ok (f, rest).
Proof.
  intros H. unfold read_field.
  destruct f; cbn [write_field field_ok] in *; rewrite <- ?app_assoc;
    rewrite read_u16_write by lia; cbn [bind N.eqb Pos.eqb].
  - rewrite read_instance_tag_write by assumption. reflexivity.
  - rewrite read_u16_le_write by lia. cbn [bind N.eqb Pos.eqb negb]. rewrite read_ed448_point_write by assumption. reflexivity.
  - rewrite read_u16_le_write by lia. cbn [bind N.eqb Pos.eqb negb]. rewrite read_ed448_point_write by assumption. reflexivity.
  - destruct H as [H1 H2]. destruct (parse_encode_versions vs H1) as [P L].
    rewrite read_data_write by (rewrite L; assumption). cbn [bind]. now rewrite P.
  - rewrite read_i64_write by assumption. reflexivity.
  - rewrite read_public_key_write by assumption. reflexivity.
  - rewrite read_dsa_signature_write by assumption. reflexivity.
Qed.

Lemma write_field_length f : (2 <= length (write_field f))%nat.
Proof. destruct f; cbn [write_field]; rewrite ?app_length, write_u16_length; lia. Qed.

Lemma write_fields_length fs : (2 * length fs <= length (write_fields fs))%nat.
Proof.
  unfold write_fields. induction fs as [|f fs IH]; cbn [map concat length]; [lia|].
  rewrite app_length. pose proof (write_field_length f). lia.
Qed.

Lemma read_fields_write fs : forall fuel rest,
  Forall (field_ok C) fs -> (length fs <= fuel)%nat ->
  read_fields C fuel (N.of_nat (length fs)) (write_fields fs ++ rest) = Ok (fs, rest).
Proof.
  induction fs as [|f fs IH]; intros fuel rest HF HL.
  - destruct fuel; reflexivity.
  - destruct fuel as [|fuel]; [cbn in HL; lia|]. cbn [read_fields length].
    destruct (N.eqb_spec (N.of_nat (S (length fs))) 0) as [?|_]; [lia|].
    inversion HF; subst. unfold write_fields. cbn [map concat]. rewrite <- app_assoc.
    rewrite read_field_write by assumption. cbn [bind].
    replace (N.of_nat (S (length fs)) - 1) with (N.of_nat (length fs)) by lia.
    fold (write_fields fs). rewrite IH by (auto; cbn in HL; lia). reflexivity.
Qed.


Lemma read_payload_write p rest :
  payload_wire_ok C p -> read_payload C (write_payload p ++ rest) = Ok (p, rest).
Proof.
  intros (HF & HL & HS & cp & HV). apply payload_validate_iff in HV. unfold read_payload, write_payload. rewrite <- !app_assoc.
  rewrite read_u32_write by assumption. cbn [bind].
  rewrite read_fields_write; [|assumption|].
  2: { rewrite !app_length. pose proof (write_fields_length (pl_fields p)). lia. }
  cbn [bind]. rewrite read_ed448_signature_write by assumption. cbn [bind].
  replace (mkPayload (pl_fields p) (pl_signature p)) with p by now destruct p.
  rewrite HV. reflexivity.
Qed.

Lemma read_payload_ok buf p rest :
  read_payload C buf = Ok (p, rest) ->
  ed_sig_ok (pl_signature p) /\ exists cp, payload_validate C p = Ok cp.
Proof.
  unfold read_payload. intros H. repeat bind_inv H. injection H as <- <-.
  apply read_ed448_signature_exact in E1. split; [apply E1|eauto].
Qed.

Lemma read_field_safe : reader_safe (read_field C).
Proof.
  intros buf. unfold read_field. apply bind_no_panic; [apply read_u16_safe|]. intros [t b] _.
  repeat match goal with
  | |- context [if ?c then _ else _] => destruct c
  end; try discriminate.
  all: apply bind_no_panic;
    first [apply read_instance_tag_safe|apply read_u16_le_safe|apply read_data_safe|apply read_i64_safe
          |apply read_public_key_safe|apply read_dsa_signature_safe|idtac];
    intros [v b'] _; try discriminate.
  all: destruct (negb _); try discriminate.
  all: apply bind_no_panic; [apply read_ed448_point_safe|]; intros [? ?] _; discriminate.
Qed.

Lemma read_fields_safe fuel : forall count buf, read_fields C fuel count buf <> Panic.
Proof.
  induction fuel as [|fuel IH]; intros count buf; cbn [read_fields]; destruct (count =? 0); try discriminate.
  apply bind_no_panic; [apply read_field_safe|]. intros [v b] _.
  apply bind_no_panic; [apply IH|]. intros [vs b'] _. discriminate.
Qed.

Lemma read_payload_safe : reader_safe (read_payload C).
Proof.
  intros buf. unfold read_payload. apply bind_no_panic; [apply read_u32_safe|]. intros [n b] _.
  apply bind_no_panic; [apply read_fields_safe|]. intros [fs b'] _.
  apply bind_no_panic; [apply read_ed448_signature_safe|]. intros [s b''] _.
  apply bind_no_panic; [apply payload_validate_safe|]. discriminate.
Qed.

(* The fields read are exactly as many as announced and each is well formed, provided points decode
   to points that survive the wire. *)
Definition decode_stable : Prop :=
  forall enc p, pt_decode C enc = Some p -> pt_decode C (pt_encode p) = Some p.

Lemma read_ed448_point_ok buf p rest :
  decode_stable -> read_ed448_point C buf = Ok (p, rest) -> point_wire_ok C p.
Proof.
  unfold read_ed448_point. intros D H. bind_inv H.
  destruct (pt_decode C _) eqn:E1; [|discriminate]. injection H as <- <-. exact (D _ _ E1).
Qed.

Lemma read_field_ok buf f rest :
  decode_stable -> read_field C buf = Ok (f, rest) -> field_ok C f /\ (length rest + 2 <= length buf)%nat.
Proof.
  intros D H. unfold read_field in H. bind_inv H. apply read_u16_exact in E as [_ ->].
  rewrite app_length, write_u16_length.
  destruct (n =? 1); [|destruct (n =? 2); [|destruct (n =? 3); [|destruct (n =? 4);
    [|destruct (n =? 5); [|destruct (n =? 6); [|destruct (n =? 7); [|discriminate]]]]]]].
  - bind_inv H. injection H as <- <-. apply read_instance_tag_exact in E as [? ->].
    split; [assumption|]. rewrite app_length. lia.
  - bind_inv H. destruct (negb _); [discriminate|]. bind_inv H. injection H as <- <-.
    apply read_u16_le_exact in E as [_ ->].
    split; [eapply read_ed448_point_ok; eassumption|].
    unfold read_ed448_point in E0. bind_inv E0. destruct (pt_decode C _); [|discriminate].
    injection E0 as <- <-. apply read_fixed_exact in E as [-> _]. rewrite !app_length. lia.
  - bind_inv H. destruct (negb _); [discriminate|]. bind_inv H. injection H as <- <-.
    apply read_u16_le_exact in E as [_ ->].
    split; [eapply read_ed448_point_ok; eassumption|].
    unfold read_ed448_point in E0. bind_inv E0. destruct (pt_decode C _); [|discriminate].
    injection E0 as <- <-. apply read_fixed_exact in E as [-> _]. rewrite !app_length. lia.
  - bind_inv H. injection H as <- <-. apply read_data_exact in E as [? ->].
    pose proof (parse_versions_ok l0) as [P1 P2]. split.
    + cbn. split; [assumption|]. lia.
    + rewrite app_length. lia.
  - bind_inv H. injection H as <- <-. apply read_i64_exact in E as [? ->].
    split; [assumption|]. rewrite app_length. lia.
  - bind_inv H. injection H as <- <-. apply read_public_key_ok in E as [? (pre & ->)].
    split; [assumption|]. rewrite app_length. lia.
  - bind_inv H. injection H as <- <-. apply read_dsa_signature_exact in E as [? ->].
    split; [assumption|]. rewrite app_length. lia.
Qed.

Lemma read_fields_ok fuel : forall count buf fs rest,
  decode_stable -> read_fields C fuel count buf = Ok (fs, rest) ->
  Forall (field_ok C) fs /\ N.of_nat (length fs) = count.
Proof.
  induction fuel as [|fuel IH]; intros count buf fs rest D H; cbn [read_fields] in H;
    destruct (N.eqb_spec count 0) as [->|Hc]; try discriminate.
  - injection H as <- <-. auto.
  - injection H as <- <-. auto.
  - bind_inv H. bind_inv H. injection H as <- <-. apply IH in E0 as [H1 H2]; [|assumption].
    apply read_field_ok in E as [H3 _]; [|assumption]. split; [now constructor|]. cbn [length]. lia.
Qed.

Lemma read_payload_wire_ok buf p rest :
  decode_stable -> read_payload C buf = Ok (p, rest) -> payload_wire_ok C p.
Proof.
  intros D H. destruct (read_payload_ok _ _ _ H) as [HS HV].
  unfold read_payload in H. repeat bind_inv H. injection H as <- <-.
  apply read_u32_exact in E as [Hn _]. apply read_fields_ok in E0 as [H1 H2]; [|assumption].
  unfold payload_wire_ok. cbn in *. rewrite H2. destruct HV as (cp & HV).
  apply payload_validate_iff in HV. eauto 10.
Qed.

(* The fuel is never the reason for a failure: the loop behaves as the unbounded one. *)
Lemma read_field_shorter buf f rest :
  read_field C buf = Ok (f, rest) -> (length rest < length buf)%nat.
Proof.
  intros H. unfold read_field in H. bind_inv H. apply read_u16_exact in E as [_ ->].
  rewrite app_length, write_u16_length.
  assert (length rest <= length l)%nat; [|lia].
  assert (PT : forall b p r, read_ed448_point C b = Ok (p, r) -> (length r <= length b)%nat).
  { intros b p r HH. unfold read_ed448_point in HH. bind_inv HH. destruct (pt_decode C _); [|discriminate].
    injection HH as <- <-. apply read_fixed_exact in E as [-> _]. rewrite app_length. lia. }
  destruct (n =? 1); [|destruct (n =? 2); [|destruct (n =? 3); [|destruct (n =? 4);
    [|destruct (n =? 5); [|destruct (n =? 6); [|destruct (n =? 7); [|discriminate]]]]]]].
  - bind_inv H. injection H as <- <-. apply read_instance_tag_exact in E as [? ->]. rewrite app_length. lia.
  - bind_inv H. destruct (negb _); [discriminate|]. bind_inv H. injection H as <- <-.
    apply read_u16_le_exact in E as [_ ->]. apply PT in E0. rewrite app_length. lia.
  - bind_inv H. destruct (negb _); [discriminate|]. bind_inv H. injection H as <- <-.
    apply read_u16_le_exact in E as [_ ->]. apply PT in E0. rewrite app_length. lia.
  - bind_inv H. injection H as <- <-. apply read_data_exact in E as [? ->]. rewrite app_length. lia.
  - bind_inv H. injection H as <- <-. apply read_i64_exact in E as [? ->]. rewrite app_length. lia.
  - bind_inv H. injection H as <- <-. apply read_public_key_ok in E as [? (pre & ->)]. rewrite app_length. lia.
  - bind_inv H. injection H as <- <-. apply read_dsa_signature_exact in E as [? ->]. rewrite app_length. lia.
Qed.

Lemma read_fields_fuel fuel : forall fuel' count buf,
  (length buf <= fuel)%nat -> (length buf <= fuel')%nat ->
  read_fields C fuel count buf = read_fields C fuel' count buf.
Proof.
  induction fuel as [|fuel IH]; intros fuel' count buf H1 H2.
  - destruct buf; [|cbn in H1; lia]. destruct fuel'; cbn [read_fields]; destruct (count =? 0); reflexivity.
  - destruct fuel' as [|fuel'].
    + destruct buf; [|cbn in H2; lia]. cbn [read_fields]. destruct (count =? 0); reflexivity.
    + cbn [read_fields]. destruct (count =? 0); [reflexivity|].
      destruct (read_field C buf) as [[v r]|e|] eqn:E; cbn [bind]; try reflexivity.
      apply read_field_shorter in E. rewrite (IH fuel') by lia. reflexivity.
Qed.

(** ** Signing *)

Lemma profile_sign_valid p identity legacy nonce payload :
  profile_sign C p identity legacy nonce = Ok payload -> exists cp, payload_validate C payload = Ok cp.
Proof.
  unfold profile_sign. destruct (negb (point_eqb _ _)); [discriminate|].
  destruct (negb (Bool.eqb _ _)); [discriminate|]. intros H. bind_inv H.
  destruct (payload_validate C _) eqn:E1; try discriminate. injection H as <-. eauto.
Qed.

(* A published profile validates to the very profile that was signed. *)
Lemma profile_sign_same p identity legacy nonce payload cp :
  profile_sign C p identity legacy nonce = Ok payload -> payload_validate C payload = Ok cp -> cp = p.
Proof.
  unfold profile_sign. destruct (negb (point_eqb _ _)); [discriminate|].
  destruct (Bool.eqb (is_some (cp_legacy p)) (is_some legacy)) eqn:EL; [|discriminate].
  cbn [negb]. intros H HV. bind_inv H.
  assert (E1 : payload = mkPayload
    match cp_legacy p with
    | Some pk =>
        match legacy with
        | Some kp =>
            ([FOwnerTag (cp_owner p); FIdentityKey (cp_identity p); FForgingKey (cp_forging p);
              FVersions (cp_versions p); FExpiration (cp_expiration p)] ++ [FLegacyKey pk]) ++
            [FTransitional (dsa_sign C kp nonce (write_fields
              ([FOwnerTag (cp_owner p); FIdentityKey (cp_identity p); FForgingKey (cp_forging p);
              FVersions (cp_versions p); FExpiration (cp_expiration p)] ++ [FLegacyKey pk])))]
        | None => [FOwnerTag (cp_owner p); FIdentityKey (cp_identity p); FForgingKey (cp_forging p);
              FVersions (cp_versions p); FExpiration (cp_expiration p)]
        end
    | None => [FOwnerTag (cp_owner p); FIdentityKey (cp_identity p); FForgingKey (cp_forging p);
              FVersions (cp_versions p); FExpiration (cp_expiration p)]
    end x).
  { destruct (payload_validate C _); [|discriminate|discriminate]. now injection H as <-. }
  clear H. subst payload. apply payload_validate_iff in HV.
  destruct HV as (A1 & A2 & A3 & A4 & A5 & (k & A6) & _ & A7). cbn [pl_fields] in *.
  destruct p as [o i g vs e lg], cp as [o' i' g' vs' e' lg']. unfold only, none in *. cbn in *.
  destruct lg as [pk|], legacy as [kp|]; cbn in *; try discriminate;
    injection A1 as <-; injection A2 as <-; injection A3 as <-; injection A4 as <-.
  all: assert (vs' = vs) by (destruct k as [|[|k]]; cbn in A6; [now injection A6|discriminate|discriminate]);
    subst vs'.
  - destruct lg' as [k'|].
    + destruct A7 as (A7 & _). injection A7 as <-. reflexivity.
    + destruct A7 as (A7 & _). discriminate.
  - destruct lg' as [k'|]; [|reflexivity]. destruct A7 as (A7 & _). discriminate.
Qed.

End WithCrypto.
