(* Proofs about reassembly. *)
From Verif Require Import Base BaseLemmas Types Crypto Encoding SpecWire EncodingProofs Fragment SpecFragment
  FragmentProofs.
From Coq Require Import Lia ZifyN ZifyNat.
Local Open Scope N_scope.

Lemma run_app {S} (step : S -> fragment -> S * asm_result) st l1 l2 :
  run step st (l1 ++ l2)
  = let '(st1, o1) := run step st l1 in let '(st2, o2) := run step st1 l2 in (st2, o1 ++ o2).
Proof.
  revert st; induction l1 as [|f l1 IH]; intros st; cbn.
  - now destruct (run step st l2).
  - destruct (step st f) as [st1 o]. rewrite IH. destruct (run step st1 l1) as [st2 os].
    now destruct (run step st2 l2).
Qed.
Lemma run_length {S} (step : S -> fragment -> S * asm_result) st l st' os :
  run step st l = (st', os) -> length os = length l.
Proof.
  revert st os; induction l as [|f l IH]; cbn; intros st os H.
  - now inversion H.
  - destruct (step st f) as [st1 o]. destruct (run step st1 l) as [st2 os'] eqn:E.
    inversion H; subst. cbn. f_equal. eauto.
Qed.

(** ** In-order assembler *)

Definition consecutive (rn : list fragment) (total : N) : Prop :=
  map fr_part rn = map N.of_nat (seq 1 (length rn)) /\ Forall (fun g => fr_total g = total) rn.

Definition inorder_inv (h : list fragment) (st : inorder) : Prop :=
  exists pre rn, filter valid_b h = pre ++ rn /\ consecutive rn (io_total st)
    /\ io_last st = N.of_nat (length rn) /\ io_last st <= io_total st
    /\ (io_last st < io_total st -> io_content st = concat (map fr_payload rn)).

Lemma consecutive_snoc rn n f :
  consecutive rn n -> fr_part f = N.of_nat (length rn) + 1 -> fr_total f = n -> consecutive (rn ++ [f]) n.
Proof.
  intros [H1 H2] H3 H4. split.
  - rewrite map_app, app_length, H1, seq_app, map_app. cbn. do 2 f_equal. lia.
  - apply Forall_app; auto.
Qed.

Lemma inorder_step h st f st' o :
  inorder_inv h st -> inorder_assemble st f = (st', o) -> o <> AsmPanic ->
  inorder_inv (h ++ [f]) st'
  /\ (forall m, o = AsmOk m -> exists pre rn, filter valid_b (h ++ [f]) = pre ++ rn ++ [f]
        /\ consecutive (rn ++ [f]) (fr_total f) /\ N.of_nat (length (rn ++ [f])) = fr_total f
        /\ m = concat (map fr_payload (rn ++ [f]))).
Proof.
  intros (pre & rn & H1 & H2 & H3 & H4 & H5) Hs Ho.
  unfold inorder_assemble in Hs. rewrite verify_valid in Hs.
  rewrite filter_app. cbn [filter]. destruct (valid_b f) eqn:V; cbn [negb] in Hs.
  2:{ inversion Hs; subst. split; [|intros; discriminate]. exists pre, rn.
      rewrite filter_app. cbn [filter]. rewrite V, app_nil_r. auto. }
  apply valid_b_iff in V as VV. destruct VV as (V1 & V2 & _).
  (* the two ways to accept *)
  assert (Acc : forall pre' rn' st1,
     filter valid_b h = pre' ++ rn' -> consecutive (rn' ++ [f]) (fr_total f) ->
     io_total st1 = fr_total f -> io_last st1 = N.of_nat (length (rn' ++ [f])) ->
     io_content st1 = concat (map fr_payload (rn' ++ [f])) -> io_last st1 <= io_total st1 ->
     (if io_last st1 =? io_total st1
      then (mkInorder (io_total st1) (io_last st1) [], AsmOk (io_content st1))
      else (st1, AsmErr IncompleteResult)) = (st', o) ->
     inorder_inv (h ++ [f]) st'
     /\ (forall m, o = AsmOk m -> exists pre rn, filter valid_b h ++ [f] = pre ++ rn ++ [f]
        /\ consecutive (rn ++ [f]) (fr_total f) /\ N.of_nat (length (rn ++ [f])) = fr_total f
        /\ m = concat (map fr_payload (rn ++ [f])))).
  { intros pre' rn' st1 A1 A2 A3 A4 A5 A6 A7. split.
    - exists pre', (rn' ++ [f]). rewrite filter_app. cbn [filter]. rewrite V, A1, <- app_assoc.
      destruct (N.eqb_spec (io_last st1) (io_total st1)); inversion A7; subst; cbn [io_total io_last io_content].
      + rewrite A3 in *. repeat split; auto; try apply A2; try lia.
      + rewrite A3 in *. repeat split; auto; try apply A2; try lia.
    - intros m ->. destruct (N.eqb_spec (io_last st1) (io_total st1)); inversion A7; subst.
      exists pre', rn'. rewrite A1, <- app_assoc. repeat split; auto; try apply A2. lia. }
  destruct (N.eqb_spec (fr_part f) 1) as [P1|P1].
  - eapply (Acc (pre ++ rn) []); [| | | | | |exact Hs]; cbn.
    + now rewrite app_nil_r.
    + split; cbn; [now rewrite P1|auto].
    + reflexivity.
    + reflexivity.
    + now rewrite app_nil_r.
    + lia.
  - destruct (N.eqb_spec (fr_total f) (io_total st)) as [T1|T1].
    + destruct (N.eqb_spec (io_last st) 65535); [inversion Hs; congruence|].
      destruct (N.eqb_spec (fr_part f) (io_last st + 1)) as [L1|L1].
      * eapply (Acc pre rn); [| | | | | |exact Hs]; cbn.
        -- assumption.
        -- apply consecutive_snoc; auto; [now rewrite T1|lia].
        -- auto.
        -- rewrite app_length; cbn. lia.
        -- rewrite map_app, concat_app. cbn. rewrite app_nil_r, H5 by lia. reflexivity.
        -- lia.
      * inversion Hs; subst. split; [|intros; discriminate].
        exists (filter valid_b (h ++ [f])), []. rewrite app_nil_r. cbn. repeat split; auto; lia.
    + inversion Hs; subst. split; [|intros; discriminate].
      exists (filter valid_b (h ++ [f])), []. rewrite app_nil_r. cbn. repeat split; auto; lia.
Qed.

Lemma inorder_run_inv h st os :
  run inorder_assemble inorder_new h = (st, os) -> ~ In AsmPanic os -> inorder_inv h st.
Proof.
  revert st os. induction h as [|f h IH] using rev_ind; intros st os H NP.
  - cbn in H. inversion H; subst. exists [], []. cbn. repeat split; auto; lia.
  - rewrite run_app in H. destruct (run inorder_assemble inorder_new h) as [st1 o1] eqn:E.
    cbn [run] in H. destruct (inorder_assemble st1 f) as [st2 o2] eqn:E2. inversion H; subst.
    rewrite in_app_iff in NP.
    destruct (inorder_step h st1 f st o2) as [K _]; auto.
    + eapply IH; eauto.
    + intros ->. apply NP. right. now left.
Qed.

Lemma inorder_sound h f st os st' m :
  run inorder_assemble inorder_new h = (st, os) -> ~ In AsmPanic os ->
  inorder_assemble st f = (st', AsmOk m) ->
  exists pre rn, filter valid_b (h ++ [f]) = pre ++ rn
    /\ map fr_part rn = map N.of_nat (seq 1 (length rn))
    /\ Forall (fun g => fr_total g = N.of_nat (length rn)) rn
    /\ rn <> [] /\ m = concat (map fr_payload rn).
Proof.
  intros H NP Hs. pose proof (inorder_run_inv _ _ _ H NP) as I.
  destruct (inorder_step _ _ _ _ _ I Hs ltac:(discriminate)) as [_ K].
  destruct (K m eq_refl) as (pre & rn & K1 & [K2 K2'] & K3 & K4).
  exists pre, (rn ++ [f]). rewrite K3. repeat split; auto. now destruct rn.
Qed.

Lemma inorder_panic st f st' :
  inorder_assemble st f = (st', AsmPanic) -> io_last st = 65535 /\ fr_total f = io_total st /\ valid_b f = true.
Proof.
  unfold inorder_assemble. rewrite verify_valid. destruct (valid_b f); cbn [negb]; [|intros; discriminate].
  destruct (fr_part f =? 1).
  - cbn [io_last io_total io_content]. destruct (1 =? fr_total f); intros; discriminate.
  - destruct (N.eqb_spec (fr_total f) (io_total st)); [|intros; discriminate].
    destruct (N.eqb_spec (io_last st) 65535); [auto|].
    destruct (fr_part f =? io_last st + 1); [|intros; discriminate].
    cbn [io_last io_total io_content]. destruct (fr_part f =? io_total st); intros; discriminate.
Qed.

Lemma inorder_rest n rest st k :
  map fr_part rest = map N.of_nat (seq (S k) (length rest)) ->
  Forall (fun f => frag_valid f /\ fr_total f = n) rest ->
  io_total st = n -> io_last st = N.of_nat k -> n = N.of_nat (k + length rest) -> (1 <= k)%nat ->
  n < 65536 -> rest <> [] ->
  run inorder_assemble st rest
  = (mkInorder n n [],
     repeat (AsmErr IncompleteResult) (length rest - 1)
     ++ [AsmOk (io_content st ++ concat (map fr_payload rest))]).
Proof.
  revert st k; induction rest as [|f rest IH]; intros st k Hp Hv Ht Hl Hn Hk Hb Hne; [congruence|].
  cbn [map length seq] in Hp. inversion Hp as [[Hp1 Hp2]]. inversion Hv as [|? ? [Hv1 Hv2] Hv3]; subst.
  cbn [run]. unfold inorder_assemble at 1. rewrite verify_valid, (proj2 (valid_b_iff f) Hv1). cbn [negb].
  destruct (N.eqb_spec (fr_part f) 1); [lia|].
  rewrite Hv2, N.eqb_refl.
  destruct (N.eqb_spec (io_last st) 65535); [cbn [length] in *; lia|].
  destruct (N.eqb_spec (fr_part f) (io_last st + 1)); [|lia].
  cbn [io_last io_total io_content].
  destruct rest as [|g rest].
  - destruct (N.eqb_spec (fr_part f) (io_total st)); [|cbn [length] in *; lia].
    cbn [run length Nat.sub repeat app concat map]. rewrite app_nil_r, e0.
    repeat f_equal; cbn [length] in *; lia.
  - destruct (N.eqb_spec (fr_part f) (io_total st)) as [E|_]; [cbn [length] in *; lia|].
    rewrite (IH (mkInorder (io_total st) (fr_part f) (io_content st ++ fr_payload f)) (S k)).
    + cbn [io_content]. cbn [length Nat.sub repeat app]. rewrite Nat.sub_0_r.
      cbn [concat map]. now rewrite <- app_assoc.
    + assumption.
    + assumption.
    + reflexivity.
    + cbn. lia.
    + cbn [length] in *. lia.
    + lia.
    + assumption.
    + discriminate.
Qed.

Lemma inorder_complete id s r content fs st :
  pieces V3 id s r content fs -> Forall frag_valid fs -> (2 <= length fs)%nat ->
  N.of_nat (length fs) < 65536 ->
  run inorder_assemble st fs
  = (mkInorder (N.of_nat (length fs)) (N.of_nat (length fs)) [],
     repeat (AsmErr IncompleteResult) (length fs - 1) ++ [AsmOk content]).
Proof.
  intros (H1 & H2 & H3) Hv H4 H5.
  destruct fs as [|f fs]; [cbn in H4; lia|].
  cbn [map length seq] in H2. inversion H2 as [[P1 P2]].
  assert (Ht : Forall (fun g => frag_valid g /\ fr_total g = N.of_nat (length (f :: fs))) (f :: fs)).
  { rewrite Forall_forall in *. intros g Hg. specialize (H3 g Hg). split; [auto|tauto]. }
  inversion Ht as [|? ? [T1 T2] T3]; subst x l.
  cbn [run]. unfold inorder_assemble at 1. rewrite verify_valid, (proj2 (valid_b_iff f) T1). cbn [negb].
  rewrite P1. cbn [N.of_nat Pos.of_succ_nat]. rewrite N.eqb_refl. cbn [io_last io_total io_content].
  destruct (N.eqb_spec 1 (fr_total f)); [cbn [length] in *; lia|].
  rewrite (inorder_rest (N.of_nat (length (f :: fs))) fs _ 1%nat).
  - cbn [length Nat.sub repeat app]. rewrite Nat.sub_0_r. cbn [io_content].
    assert (E : repeat (AsmErr IncompleteResult) (length fs)
                = AsmErr IncompleteResult :: repeat (AsmErr IncompleteResult) (length fs - 1)).
    { destruct fs; [cbn in H4; lia|]. cbn [length repeat Nat.sub]. now rewrite Nat.sub_0_r. }
    rewrite E. subst content. reflexivity.
  - assumption.
  - assumption.
  - assumption.
  - reflexivity.
  - cbn [length]. lia.
  - lia.
  - assumption.
  - intros ->. cbn in H4. lia.
Qed.

(** ** Maps *)

Section Map.
  Context {A : Type}.
  Implicit Types m : list (bytes * A).

  Lemma get_del_same k m : map_get k (map_del k m) = None.
  Proof.
    induction m as [|[k' v] m IH]; cbn; [reflexivity|].
    destruct (bytes_eqb k k') eqn:E; [assumption|]. cbn. now rewrite E.
  Qed.
  Lemma get_del_other k k' m : k' <> k -> map_get k' (map_del k m) = map_get k' m.
  Proof.
    intros H. induction m as [|[k2 v] m IH]; cbn; [reflexivity|].
    destruct (bytes_eqb k k2) eqn:E.
    - apply bytes_eqb_eq in E as <-. rewrite IH.
      destruct (bytes_eqb k' k) eqn:E2; [apply bytes_eqb_eq in E2; contradiction|reflexivity].
    - cbn. destruct (bytes_eqb k' k2); auto.
  Qed.
  Lemma get_set_same k v m : map_get k (map_set k v m) = Some v.
  Proof.
    induction m as [|[k' v'] m IH]; cbn.
    - now rewrite (proj2 (bytes_eqb_eq k k) eq_refl).
    - destruct (bytes_eqb k k') eqn:E; cbn; rewrite E; auto.
  Qed.
  Lemma get_set_other k k' v m : k' <> k -> map_get k' (map_set k v m) = map_get k' m.
  Proof.
    intros H. induction m as [|[k2 v2] m IH]; cbn.
    - destruct (bytes_eqb k' k) eqn:E; [apply bytes_eqb_eq in E; contradiction|reflexivity].
    - destruct (bytes_eqb k k2) eqn:E; cbn.
      + apply bytes_eqb_eq in E as <-.
        destruct (bytes_eqb k' k) eqn:E; [apply bytes_eqb_eq in E; contradiction|reflexivity].
      + destruct (bytes_eqb k' k2); auto.
  Qed.
  Lemma get_in k v m : map_get k m = Some v -> In (k, v) m.
  Proof.
    induction m as [|[k' v'] m IH]; cbn; [discriminate|].
    destruct (bytes_eqb k k') eqn:E; [|auto]. intros H; inversion H; subst.
    apply bytes_eqb_eq in E as <-. now left.
  Qed.
  Lemma get_keys k m : map_get k m <> None <-> In k (map fst m).
  Proof.
    induction m as [|[k' v'] m IH]; cbn; [tauto|].
    destruct (bytes_eqb k k') eqn:E.
    - apply bytes_eqb_eq in E as <-. split; [auto|discriminate].
    - rewrite IH. split; [auto|]. intros [->|H]; [|assumption].
      now rewrite (proj2 (bytes_eqb_eq k k) eq_refl) in E.
  Qed.
  Lemma in_get k v m : NoDup (map fst m) -> In (k, v) m -> map_get k m = Some v.
  Proof.
    induction m as [|[k' v'] m IH]; cbn; [tauto|]. intros ND H. inversion ND; subst.
    destruct H as [H|H].
    - inversion H; subst. now rewrite (proj2 (bytes_eqb_eq k k) eq_refl).
    - destruct (bytes_eqb k k') eqn:E; [|auto]. apply bytes_eqb_eq in E as <-.
      exfalso. apply H2. apply (in_map fst) in H. assumption.
  Qed.
  Lemma del_keys k m : forall x, In x (map fst (map_del k m)) <-> In x (map fst m) /\ x <> k.
  Proof.
    intros x. rewrite <- !get_keys. destruct (bytes_eqb x k) eqn:E.
    - apply bytes_eqb_eq in E as ->. rewrite get_del_same. intuition congruence.
    - assert (x <> k) by (intros ->; now rewrite (proj2 (bytes_eqb_eq k k) eq_refl) in E).
      rewrite get_del_other by assumption. tauto.
  Qed.
  Lemma del_nodup k m : NoDup (map fst m) -> NoDup (map fst (map_del k m)).
  Proof.
    induction m as [|[k' v'] m IH]; cbn; [auto|]. intros H; inversion H; subst.
    destruct (bytes_eqb k k'); [auto|]. cbn. constructor; [|auto].
    intros HI. apply del_keys in HI. tauto.
  Qed.
  Lemma del_absent k m : map_get k m = None -> map_del k m = m.
  Proof.
    induction m as [|[k' v'] m IH]; cbn; [auto|]. destruct (bytes_eqb k k'); [discriminate|].
    intros H. now rewrite IH.
  Qed.
  Lemma del_length k m : NoDup (map fst m) -> map_get k m <> None -> S (length (map_del k m)) = length m.
  Proof.
    induction m as [|[k' v'] m IH]; cbn; [congruence|]. intros ND H. inversion ND; subst.
    destruct (bytes_eqb k k') eqn:E.
    - apply bytes_eqb_eq in E as <-. rewrite del_absent; [reflexivity|].
      destruct (map_get k m) eqn:G; [|reflexivity]. exfalso. apply H2. apply get_keys. congruence.
    - cbn. f_equal. auto.
  Qed.
  Lemma del_length_le k m : (length (map_del k m) <= length m)%nat.
  Proof. induction m as [|[k' v'] m IH]; cbn; [lia|]. destruct (bytes_eqb k k'); cbn; lia. Qed.
  Lemma set_keys k v m : forall x, In x (map fst (map_set k v m)) <-> In x (map fst m) \/ x = k.
  Proof.
    intros x. rewrite <- !get_keys. destruct (bytes_eqb x k) eqn:E.
    - apply bytes_eqb_eq in E as ->. rewrite get_set_same. intuition congruence.
    - assert (x <> k) by (intros ->; now rewrite (proj2 (bytes_eqb_eq k k) eq_refl) in E).
      rewrite get_set_other by assumption. tauto.
  Qed.
  Lemma set_nodup k v m : NoDup (map fst m) -> NoDup (map fst (map_set k v m)).
  Proof.
    induction m as [|[k' v'] m IH]; cbn; intros H; [repeat constructor; tauto|]. inversion H; subst.
    destruct (bytes_eqb k k') eqn:E; cbn; constructor; auto.
    intros HI. apply set_keys in HI as [HI| ->]; [contradiction|].
    now rewrite (proj2 (bytes_eqb_eq k k) eq_refl) in E.
  Qed.
  Lemma set_length k v m :
    length (map_set k v m) = (match map_get k m with Some _ => 0 | None => 1 end + length m)%nat.
  Proof.
    induction m as [|[k' v'] m IH]; cbn; [reflexivity|].
    destruct (bytes_eqb k k'); cbn; [reflexivity|]. rewrite IH. destruct (map_get k m); lia.
  Qed.
End Map.

(** ** Eviction *)

Lemma eldest_spec m acc :
  In (eldest_from acc m) (acc :: m)
  /\ forall e, In e (acc :: m) -> as_tick (snd (eldest_from acc m)) <= as_tick (snd e).
Proof.
  revert acc; induction m as [|x m IH]; intros acc; cbn [eldest_from].
  - split; [now left|]. intros e [->|[]]. lia.
  - set (acc' := if _ <? _ then acc else x). destruct (IH acc') as [I1 I2]. split.
    + destruct I1 as [I1|I1]; [|right; now right]. rewrite <- I1. unfold acc'.
      destruct (_ <? _); [now left|right; now left].
    + intros e He. pose proof (I2 acc' (or_introl eq_refl)) as I3.
      assert (as_tick (snd acc') <= as_tick (snd acc) /\ as_tick (snd acc') <= as_tick (snd x)).
      { unfold acc'. destruct (N.ltb_spec (as_tick (snd acc)) (as_tick (snd x))); lia. }
      destruct He as [<-|[<-|He]]; [lia|lia|]. apply I2. now right.
Qed.
Lemma make_room_spec m id fuel :
  NoDup (map fst m) -> (length m <= 100)%nat -> (length m <= fuel)%nat ->
  make_room fuel id m = m /\ (map_get id m <> None \/ (length m < 100)%nat)
  \/ exists k a, map_get id m = None /\ length m = 100%nat /\ map_get k m = Some a
       /\ (forall k' a', map_get k' m = Some a' -> as_tick a <= as_tick a')
       /\ make_room fuel id m = map_del k m /\ length (map_del k m) = 99%nat.
Proof.
  intros ND HL HF. destruct fuel as [|fuel].
  - left. destruct m; cbn in *; [split; [reflexivity|right; lia]|lia].
  - cbn [make_room]. destruct (map_get id m) eqn:G; [left; split; [reflexivity|left; congruence]|].
    destruct m as [|e r]; [left; split; [reflexivity|right; cbn; lia]|].
    unfold MAX_MESSAGES. destruct (Nat.leb_spec 100 (length (e :: r))) as [L|L]; [|left; auto].
    right. destruct (eldest_spec r e) as [I1 I2]. destruct (eldest_from e r) as [k a] eqn:E.
    assert (GK : map_get k (e :: r) = Some a) by (apply in_get; auto).
    assert (DL : length (map_del k (e :: r)) = 99%nat).
    { assert (S (length (map_del k (e :: r))) = length (e :: r))
        by (apply del_length; [assumption|congruence]). lia. }
    exists k, a. repeat split; auto.
    + lia.
    + intros k' a' G'. apply (I2 (k', a')). now apply get_in.
    + cbn [fst]. set (d := map_del k (e :: r)) in *.
      destruct fuel; [reflexivity|]. cbn [make_room].
      destruct (map_get id d); [reflexivity|]. destruct d; [reflexivity|].
      unfold MAX_MESSAGES. rewrite DL. reflexivity.
Qed.

(** ** Parts *)

Lemma find_app_one {A} (p : A -> bool) l x :
  find p (l ++ [x]) = match find p l with Some y => Some y | None => if p x then Some x else None end.
Proof.
  induction l as [|y l IH]; cbn; [now destruct (p x)|]. destruct (p y); [reflexivity|assumption].
Qed.
Definition fits_b (id : bytes) (n k : N) (g : fragment) : bool :=
  valid_b g && bytes_eqb (fr_identifier g) id && (fr_total g =? n) && (fr_part g =? k).
Lemma fits_b_iff id n k g :
  fits_b id n k g = true <-> frag_valid g /\ fr_identifier g = id /\ fr_total g = n /\ fr_part g = k.
Proof.
  unfold fits_b. rewrite !andb_true_iff, valid_b_iff, bytes_eqb_eq, !N.eqb_eq. tauto.
Qed.
Lemma first_arrival_some id n k l g :
  first_arrival id n k l = Some g ->
  In g l /\ frag_valid g /\ fr_identifier g = id /\ fr_total g = n /\ fr_part g = k.
Proof.
  intros H. apply find_some in H as [H1 H2]. split; [assumption|]. now apply fits_b_iff.
Qed.
Lemma first_arrival_none id n k l :
  first_arrival id n k l = None ->
  forall g, In g l -> frag_valid g -> fr_identifier g = id -> fr_total g = n -> fr_part g = k -> False.
Proof.
  intros H g H1 H2 H3 H4 H5. apply (find_none _ _ H) in H1. 
  change (fits_b id n k g = false) in H1.
  assert (fits_b id n k g = true) by (apply fits_b_iff; auto). congruence.
Qed.
Lemma part_in_snoc id n l f k :
  part_in id n (l ++ [f]) k
  = match first_arrival id n (N.of_nat k) l with
    | Some g => fr_payload g
    | None => if fits_b id n (N.of_nat k) f then fr_payload f else []
    end.
Proof.
  unfold part_in, first_arrival. rewrite find_app_one. destruct (find _ l); [reflexivity|].
  unfold fits_b. now destruct (_ && _ && _ && _).
Qed.
Lemma part_in_same id n l f k :
  fits_b id n (N.of_nat k) f = false -> part_in id n (l ++ [f]) k = part_in id n l k.
Proof.
  intros H. rewrite part_in_snoc, H. unfold part_in. now destruct (first_arrival _ _ _ _).
Qed.
Lemma part_in_empty id n l k : part_in id n l k = [] <-> first_arrival id n (N.of_nat k) l = None.
Proof.
  unfold part_in. destruct (first_arrival _ _ _ _) eqn:E; [|tauto].
  apply first_arrival_some in E as (_ & (_ & V & _) & _). split; [contradiction|discriminate].
Qed.

Definition slots (id : bytes) (n : N) (l : list fragment) : list bytes :=
  map (part_in id n l) (seq 1 (N.to_nat n)).
Lemma slots_length id n l : length (slots id n l) = N.to_nat n.
Proof. unfold slots. now rewrite map_length, seq_length. Qed.
Lemma slots_nth id n l i :
  (i < N.to_nat n)%nat -> nth i (slots id n l) [] = part_in id n l (S i).
Proof.
  intros H. unfold slots.
  rewrite nth_indep with (d' := part_in id n l 0) by (rewrite map_length, seq_length; assumption).
  rewrite map_nth. f_equal. rewrite seq_nth by assumption. lia.
Qed.
Lemma slots_same id n l f :
  (forall k, 1 <= k <= n -> fits_b id n k f = false) -> slots id n (l ++ [f]) = slots id n l.
Proof.
  intros H. unfold slots. apply map_ext_in. intros k Hk. apply in_seq in Hk.
  apply part_in_same. apply H. lia.
Qed.
Lemma set_part_nth i v l j :
  (i < length l)%nat -> nth j (set_part i v l) [] = if Nat.eqb j i then v else nth j l [].
Proof.
  revert l j; induction i as [|i IH]; intros [|x l] j H; cbn in H; try lia; cbn [set_part].
  - now destruct j.
  - destruct j; cbn; [reflexivity|]. apply IH. lia.
Qed.
Lemma set_part_length i v l : length (set_part i v l) = length l.
Proof. revert l; induction i; intros [|x l]; cbn; auto. Qed.
Lemma slots_set id n l f :
  frag_valid f -> fr_identifier f = id -> fr_total f = n ->
  first_arrival id n (fr_part f) l = None ->
  set_part (N.to_nat (fr_part f - 1)) (fr_payload f) (slots id n l) = slots id n (l ++ [f]).
Proof.
  intros V I T F. assert (P : 1 <= fr_part f <= n) by (destruct V as (V & _); lia).
  apply nth_ext with (d := []) (d' := []).
  - now rewrite set_part_length, !slots_length.
  - intros j Hj. rewrite set_part_length, slots_length in Hj.
    rewrite set_part_nth by (rewrite slots_length; lia). rewrite !slots_nth by assumption.
    destruct (Nat.eqb_spec j (N.to_nat (fr_part f - 1))) as [E|E].
    + rewrite part_in_snoc. replace (N.of_nat (S j)) with (fr_part f) by lia. rewrite F.
      now rewrite (proj2 (fits_b_iff id n (fr_part f) f)).
    + symmetry. apply part_in_same. destruct (fits_b id n (N.of_nat (S j)) f) eqn:B; [|reflexivity].
      apply fits_b_iff in B. lia.
Qed.
Lemma slots_new id n : slots id n [] = repeat [] (N.to_nat n).
Proof.
  unfold slots. rewrite <- (seq_length (N.to_nat n) 1) at 2.
  induction (seq 1 (N.to_nat n)) as [|k l IH]; cbn; [reflexivity|]. now rewrite <- IH.
Qed.
Lemma slots_incomplete id n l :
  existsb is_empty (slots id n l) = true <-> exists k, 1 <= k <= n /\ first_arrival id n k l = None.
Proof.
  rewrite existsb_exists. unfold slots. split.
  - intros (x & H1 & H2). apply in_map_iff in H1 as (k & <- & H1). apply in_seq in H1.
    exists (N.of_nat k). split; [lia|]. apply part_in_empty. now destruct (part_in id n l k).
  - intros (k & H1 & H2). exists (part_in id n l (N.to_nat k)). split.
    + apply in_map. apply in_seq. lia.
    + rewrite (proj2 (part_in_empty id n l (N.to_nat k))); [reflexivity|]. now rewrite N2Nat.id.
Qed.
Lemma slots_complete id n l :
  existsb is_empty (slots id n l) = false <-> all_arrived id n l.
Proof.
  unfold all_arrived. split.
  - intros H k Hk E. assert (existsb is_empty (slots id n l) = true) by (apply slots_incomplete; eauto).
    congruence.
  - intros H. apply not_true_iff_false. intros E. apply slots_incomplete in E as (k & Hk & E).
    now apply (H k).
Qed.

(** ** Invariant of the version 4 assembler *)

Definition last_at (hv : list fragment) (k : bytes) (t : N) : Prop :=
  exists a g b, hv = a ++ g :: b /\ fr_identifier g = k /\ ~ In k (map fr_identifier b)
    /\ t = N.of_nat (length a).

Record un_inv (tr : list (fragment * asm_result)) (st : unordered) : Prop := {
  ui_tick : un_tick st = N.of_nat (length (filter valid_b (seen tr)));
  ui_nodup : NoDup (pending st);
  ui_max : (length (un_map st) <= 100)%nat;
  ui_last : forall k a, map_get k (un_map st) = Some a -> last_at (filter valid_b (seen tr)) k (as_tick a);
  ui_parts : forall k a, map_get k (un_map st) = Some a ->
    exists pre suf, tr = pre ++ suf
      /\ as_parts a = slots k (N.of_nat (length (as_parts a))) (seen suf) /\ not_completed k suf;
  ui_open : forall k a, map_get k (un_map st) = Some a -> existsb is_empty (as_parts a) = true;
  ui_size : forall k a, map_get k (un_map st) = Some a -> parts_size (as_parts a) <= MAX_MESSAGE_SIZE }.

Lemma last_at_snoc_same hv k t f :
  last_at hv k t -> fr_identifier f <> k -> last_at (hv ++ [f]) k t.
Proof.
  intros (a & g & b & -> & H1 & H2 & H3) H. exists a, g, (b ++ [f]). repeat split; auto.
  - now rewrite <- app_assoc.
  - rewrite map_app, in_app_iff. cbn. intuition.
Qed.
Lemma last_at_snoc_new hv k f :
  fr_identifier f = k -> last_at (hv ++ [f]) k (N.of_nat (length hv)).
Proof. intros H. exists hv, f, []. repeat split; auto. Qed.

Lemma seen_app a b : seen (a ++ b) = seen a ++ seen b.
Proof. apply map_app. Qed.

Lemma repeat_open n : existsb is_empty (repeat [] (S n)) = true.
Proof. reflexivity. Qed.
Lemma repeat_size n : parts_size (repeat [] n) = 0.
Proof. unfold parts_size. induction n; cbn in *; auto. Qed.

(* One step from a state with the invariant: the map after making room, and the entry for the fragment. *)
Lemma un_step tr st f st' o :
  un_inv tr st -> unordered_assemble st f = (st', o) -> o <> AsmPanic ->
  un_inv (tr ++ [(f, o)]) st'
  /\ (forall m, o = AsmOk m -> exists pre suf, tr = pre ++ suf
        /\ valid_b f = true
        /\ not_completed (fr_identifier f) suf
        /\ all_arrived (fr_identifier f) (fr_total f) (seen suf ++ [f])
        /\ m = arrived (fr_identifier f) (fr_total f) (seen suf ++ [f])).
Proof.
  intros I Hs Ho. destruct I as [I1 I2 I3 I4 I5 I6 I7].
  assert (Hsn : seen (tr ++ [(f, o)]) = seen tr ++ [f]) by (rewrite seen_app; reflexivity).
  unfold unordered_assemble in Hs. rewrite verify_valid in Hs.
  destruct (valid_b f) eqn:V; cbn [negb] in Hs.
  2:{ inversion Hs; subst. split; [|intros; discriminate]. constructor; auto.
      - rewrite Hsn, filter_app. cbn [filter]. rewrite V, app_nil_r. assumption.
      - rewrite Hsn, filter_app. cbn [filter]. rewrite V, app_nil_r. assumption.
      - intros k a G. destruct (I5 k a G) as (pre & suf & -> & P & C).
        exists pre, (suf ++ [(f, AsmErr InvalidData)]). repeat split.
        + now rewrite <- app_assoc.
        + rewrite seen_app. cbn [seen map fst]. rewrite slots_same; [assumption|].
          intros i _. unfold fits_b. now rewrite V.
        + intros g m Hg. apply in_app_iff in Hg as [Hg|[Hg|[]]]; [eauto|discriminate]. }
  assert (Hfv : filter valid_b (seen (tr ++ [(f, o)])) = filter valid_b (seen tr) ++ [f])
    by (rewrite Hsn, filter_app; cbn [filter]; now rewrite V).
  apply valid_b_iff in V as VV.
  set (id := fr_identifier f) in *.
  set (m := make_room (length (un_map st)) id (un_map st)) in *.
  (* facts about m *)
  assert (Hm : NoDup (map fst m) /\ (map_get id m <> None \/ (length m < 100)%nat) /\ (length m <= 100)%nat
               /\ (forall k a, map_get k m = Some a -> map_get k (un_map st) = Some a)
               ).
  { destruct (make_room_spec (un_map st) id (length (un_map st)) I2 I3 (le_n _))
      as [[E L]|(k & a & G1 & G2 & G3 & G4 & E & L)]; fold m in E; rewrite E.
    - repeat split; auto.
    - repeat split.
      + now apply del_nodup.
      + right. lia.
      + lia.
      + intros k' a' G'. destruct (list_eq_dec Byte.byte_eq_dec k' k) as [->|N].
        * rewrite get_del_same in G'. discriminate.
        * now rewrite get_del_other in G' by assumption. }
  destruct Hm as (M1 & M2 & M3 & M4).
  set (store := match map_get id m with Some a => a | None => mkAssembly 0 (repeat [] (N.to_nat (fr_total f))) end) in *.
  (* facts about the store *)
  assert (Hst : exists pre suf, tr = pre ++ suf
     /\ as_parts store = slots id (N.of_nat (length (as_parts store))) (seen suf) /\ not_completed id suf
     /\ existsb is_empty (as_parts store) = true /\ parts_size (as_parts store) <= MAX_MESSAGE_SIZE).
  { unfold store. destruct (map_get id m) as [a|] eqn:G.
    - apply M4 in G. destruct (I5 id a G) as (pre & suf & P1 & P2 & P3). exists pre, suf.
      repeat split; auto; [eapply I6; eauto|eapply I7; eauto].
    - exists tr, []. cbn [as_parts seen map]. rewrite repeat_length, N2Nat.id, slots_new, app_nil_r.
      assert (0 < N.to_nat (fr_total f))%nat by (destruct VV; lia).
      repeat split; auto.
      + intros g mm [].
      + destruct (N.to_nat (fr_total f)); [lia|reflexivity].
      + rewrite repeat_size. unfold MAX_MESSAGE_SIZE. lia. }
  destruct Hst as (pre & suf & S1 & S2 & S3 & S4 & S5).
  destruct (N.eqb_spec (un_tick st) 4294967295) as [|NT]; [inversion Hs; congruence|].
  (* the invariant after storing parts [ps] for id, without completing *)
  assert (Upd : forall ps, st' = mkUnordered (un_tick st + 1) (map_set id (mkAssembly (un_tick st) ps) m) ->
     ps = slots id (N.of_nat (length ps)) (seen suf ++ [f]) -> (forall mm, o <> AsmOk mm) ->
     existsb is_empty ps = true -> parts_size ps <= MAX_MESSAGE_SIZE ->
     un_inv (tr ++ [(f, o)]) st').
  { intros ps -> Hps Hno Hop Hsz. constructor; cbn [un_tick un_map].
    - rewrite Hfv, app_length, I1. cbn. lia.
    - now apply set_nodup.
    - rewrite set_length. destruct (map_get id m) eqn:G; [lia|]. destruct M2; [congruence|lia].
    - rewrite Hfv. intros k a G. destruct (list_eq_dec Byte.byte_eq_dec k id) as [->|N].
      + rewrite get_set_same in G. inversion G; subst a. cbn [as_tick]. rewrite I1.
        now apply last_at_snoc_new.
      + rewrite get_set_other in G by assumption. apply last_at_snoc_same; [now apply I4, M4|].
        intros E. apply N. symmetry. exact E.
    - intros k a G. destruct (list_eq_dec Byte.byte_eq_dec k id) as [->|N].
      + rewrite get_set_same in G. inversion G; subst a. cbn [as_parts].
        exists pre, (suf ++ [(f, o)]). repeat split.
        * rewrite S1. now rewrite <- app_assoc.
        * rewrite seen_app. cbn [seen map fst]. assumption.
        * intros g mm Hg. apply in_app_iff in Hg as [Hg|[Hg|[]]]; [eauto|]. inversion Hg; subst.
          exfalso. now apply (Hno mm).
      + rewrite get_set_other in G by assumption. apply M4 in G.
        destruct (I5 k a G) as (pre' & suf' & Q1 & Q2 & Q3).
        exists pre', (suf' ++ [(f, o)]). repeat split.
        * rewrite Q1. now rewrite <- app_assoc.
        * rewrite seen_app. cbn [seen map fst]. rewrite slots_same; [assumption|].
          intros i _. destruct (fits_b _ _ _ f) eqn:B; [|reflexivity]. apply fits_b_iff in B.
          exfalso. apply N. symmetry. apply B.
        * intros g mm Hg. apply in_app_iff in Hg as [Hg|[Hg|[]]]; [eauto|]. inversion Hg; subst.
          intros <-. now apply N.
    - intros k a G. destruct (list_eq_dec Byte.byte_eq_dec k id) as [->|N].
      + rewrite get_set_same in G. inversion G; subst a. assumption.
      + rewrite get_set_other in G by assumption. eapply I6; eauto.
    - intros k a G. destruct (list_eq_dec Byte.byte_eq_dec k id) as [->|N].
      + rewrite get_set_same in G. inversion G; subst a. assumption.
      + rewrite get_set_other in G by assumption. eapply I7; eauto. }
  (* and after dropping id *)
  assert (Drop : st' = mkUnordered (un_tick st + 1) (map_del id m) -> un_inv (tr ++ [(f, o)]) st').
  { intros ->. 
    assert (D : forall k a, map_get k (map_del id m) = Some a -> k <> id /\ map_get k (un_map st) = Some a).
    { intros k a G. destruct (list_eq_dec Byte.byte_eq_dec k id) as [->|N].
      - rewrite get_del_same in G. discriminate.
      - rewrite get_del_other in G by assumption. auto. }
    constructor; cbn [un_tick un_map].
    - rewrite Hfv, app_length, I1. cbn. lia.
    - now apply del_nodup.
    - pose proof (del_length_le id m). lia.
    - rewrite Hfv. intros k a G. apply D in G as [N G]. apply last_at_snoc_same; [now apply I4|].
      intros E. apply N. symmetry. exact E.
    - intros k a G. apply D in G as [N G].
      destruct (I5 k a G) as (pre' & suf' & Q1 & Q2 & Q3).
      exists pre', (suf' ++ [(f, o)]). repeat split.
      * rewrite Q1. now rewrite <- app_assoc.
      * rewrite seen_app. cbn [seen map fst]. rewrite slots_same; [assumption|].
        intros i _. destruct (fits_b _ _ _ f) eqn:B; [|reflexivity]. apply fits_b_iff in B.
        exfalso. apply N. symmetry. apply B.
      * intros g mm Hg. apply in_app_iff in Hg as [Hg|[Hg|[]]]; [eauto|]. inversion Hg; subst.
        intros <-. now apply N.
    - intros k a G. apply D in G as [N G]. eauto.
    - intros k a G. apply D in G as [N G]. eauto. }
  destruct (N.eqb_spec (N.of_nat (length (as_parts store))) (fr_total f)) as [T|T]; cbn [negb] in Hs.
  2:{ inversion Hs; subst st' o. split; [|intros; discriminate].
      apply Upd with (ps := as_parts store); auto; [|discriminate].
      rewrite slots_same; [assumption|]. intros k _.
      destruct (fits_b _ _ _ f) eqn:B; [|reflexivity]. apply fits_b_iff in B. exfalso. apply T. symmetry. apply B. }
  assert (Hp : 1 <= fr_part f <= fr_total f) by (destruct VV; lia).
  rewrite T in S2.
  assert (Hnth : nth (N.to_nat (fr_part f - 1)) (as_parts store) [] = part_in id (fr_total f) (seen suf) (N.to_nat (fr_part f))).
  { rewrite S2, slots_nth by lia. f_equal. lia. }
  destruct (is_empty (nth _ (as_parts store) [])) eqn:EM; cbn [negb] in Hs.
  2:{ inversion Hs; subst st' o. split; [|intros; discriminate].
      apply Upd with (ps := as_parts store); auto; [|discriminate].
      rewrite T, S2 at 1. unfold slots. apply map_ext_in. intros k _. rewrite part_in_snoc.
      unfold part_in. destruct (first_arrival id (fr_total f) (N.of_nat k) (seen suf)) eqn:FA; [reflexivity|].
      destruct (fits_b _ _ _ f) eqn:B; [|reflexivity]. apply fits_b_iff in B as (_ & _ & _ & B).
      exfalso. rewrite Hnth in EM. unfold part_in in EM. rewrite N2Nat.id, B, FA in EM. discriminate. }
  assert (FA : first_arrival id (fr_total f) (fr_part f) (seen suf) = None).
  { rewrite Hnth in EM. rewrite <- (N2Nat.id (fr_part f)). apply part_in_empty.
    now destruct (part_in id (fr_total f) (seen suf) (N.to_nat (fr_part f))). }
  rewrite S2, slots_set in Hs by auto.
  set (ps := slots id (fr_total f) (seen suf ++ [f])) in *.
  assert (LP : N.of_nat (length ps) = fr_total f) by (unfold ps; rewrite slots_length, N2Nat.id; reflexivity).
  destruct (existsb is_empty ps) eqn:EX.
  - rewrite andb_true_r in Hs. destruct (N.ltb_spec MAX_MESSAGE_SIZE (parts_size ps)) as [Z|Z].
    + inversion Hs; subst st' o. split; [now apply Drop|intros; discriminate].
    + inversion Hs; subst st' o. split; [|intros; discriminate].
      apply Upd with (ps := ps); auto; [now rewrite LP|discriminate].
  - rewrite andb_false_r in Hs. inversion Hs; subst st' o. split; [now apply Drop|].
    intros mm E. inversion E; subst mm. exists pre, suf. repeat split; auto.
    now apply slots_complete.
Qed.

Lemma history_inv tr st : history tr st -> un_inv tr st.
Proof.
  induction 1 as [|tr st f st' o _ IH Hs Ho].
  - constructor; cbn; try discriminate; auto; [constructor|lia].
  - now apply (un_step tr st f st' o).
Qed.

Lemma history_sound tr st f st' m :
  history tr st -> unordered_assemble st f = (st', AsmOk m) ->
  exists pre suf, tr = pre ++ suf
    /\ not_completed (fr_identifier f) suf
    /\ all_arrived (fr_identifier f) (fr_total f) (seen suf ++ [f])
    /\ m = arrived (fr_identifier f) (fr_total f) (seen suf ++ [f]).
Proof.
  intros H Hs. apply history_inv in H.
  destruct (un_step _ _ _ _ _ H Hs ltac:(discriminate)) as [_ K].
  destruct (K m eq_refl) as (pre & suf & K1 & K2 & K3 & K4 & K5). eauto 10.
Qed.

Lemma history_panic tr st f st' :
  history tr st -> unordered_assemble st f = (st', AsmPanic) ->
  N.of_nat (length (filter valid_b (seen tr))) = 4294967295.
Proof.
  intros H. apply history_inv in H. rewrite <- (ui_tick _ _ H).
  unfold unordered_assemble. destruct (negb (verify_fragment f)); [discriminate|].
  destruct (N.eqb_spec (un_tick st) 4294967295); [auto|].
  repeat match goal with |- (if ?b then _ else _) = _ -> _ => destruct b end; discriminate.
Qed.

Lemma history_bounds tr st :
  history tr st ->
  (length (pending st) <= 100)%nat /\ NoDup (pending st)
  /\ (forall id, kept st id <= 104857600)
  /\ (forall id, In id (pending st) -> exists g o, In (g, o) tr /\ frag_valid g /\ fr_identifier g = id).
Proof.
  intros H. apply history_inv in H. repeat split.
  - unfold pending. rewrite map_length. apply H.
  - apply H.
  - intros id. unfold kept. destruct (map_get id (un_map st)) eqn:G; [|lia].
    apply (ui_size _ _ H) in G. exact G.
  - intros id Hi. apply get_keys in Hi. destruct (map_get id (un_map st)) as [a|] eqn:G; [|congruence].
    apply (ui_last _ _ H) in G. destruct G as (x & g & y & E & E1 & _).
    assert (Hg : In g (filter valid_b (seen tr))) by (rewrite E; apply in_elt).
    apply filter_In in Hg as [Hg V]. unfold seen in Hg. apply in_map_iff in Hg as ([g' o] & E2 & Hg).
    cbn in E2. subst g'. exists g, o. repeat split; auto; now apply valid_b_iff.
Qed.

(** ** Which message is dropped *)

Lemma app_cons_eq {A} (a a' : list A) g g' b b' :
  a ++ g :: b = a' ++ g' :: b' -> length a = length a' -> a = a' /\ g = g' /\ b = b'.
Proof.
  revert a'; induction a as [|x a IH]; intros [|x' a'] H L; cbn in *; try lia.
  - inversion H; auto.
  - inversion H; subst. destruct (IH a') as (-> & -> & ->); auto; lia.
Qed.
Lemma app_cons_later {A} (a a' : list A) g g' b b' :
  a ++ g :: b = a' ++ g' :: b' -> (length a < length a')%nat -> In g' b.
Proof.
  revert a'; induction a as [|x a IH]; intros [|x' a'] H L; cbn in *; try lia.
  - inversion H; subst. apply in_elt.
  - inversion H; subst. eapply IH; eauto. lia.
Qed.
Lemma last_at_lt hv k k' t t' :
  last_at hv k t -> last_at hv k' t' -> t <= t' -> k <> k' ->
  exists a g b, hv = a ++ g :: b /\ fr_identifier g = k /\ ~ In k (map fr_identifier b)
                /\ In k' (map fr_identifier b).
Proof.
  intros (a & g & b & E & H1 & H2 & H3) (a' & g' & b' & E' & H1' & H2' & H3') HT HN.
  exists a, g, b. repeat split; auto.
  destruct (Nat.eq_dec (length a) (length a')) as [L|L].
  - rewrite E in E'. destruct (app_cons_eq _ _ _ _ _ _ E' L) as (_ & <- & _). congruence.
  - rewrite E in E'. apply app_cons_later in E'; [|lia]. rewrite <- H1'. now apply in_map.
Qed.

Lemma step_pending st f st' o id :
  unordered_assemble st f = (st', o) -> o <> AsmPanic -> id <> fr_identifier f ->
  valid_b f = true ->
  map_get id (un_map st') = map_get id (make_room (length (un_map st)) (fr_identifier f) (un_map st)).
Proof.
  intros H Ho N V. unfold unordered_assemble in H. rewrite verify_valid, V in H. cbn [negb] in H.
  destruct (un_tick st =? 4294967295); [inversion H; congruence|].
  repeat match type of H with (if ?b then _ else _) = _ => destruct b end; inversion H; subst;
    cbn [un_map]; rewrite ?get_set_other, ?get_del_other by assumption; reflexivity.
Qed.

Lemma history_evict tr st f st' o id :
  history tr st -> unordered_assemble st f = (st', o) -> o <> AsmPanic ->
  In id (pending st) -> ~ In id (pending st') -> id <> fr_identifier f ->
  length (pending st) = 100%nat /\ ~ In (fr_identifier f) (pending st)
  /\ forall id', In id' (pending st) -> id' <> id -> older (seen tr) id id'.
Proof.
  intros H Hs Ho Hin Hout HN. apply history_inv in H.
  unfold pending in Hin, Hout. rewrite <- get_keys in Hin. rewrite <- get_keys in Hout.
  destruct (valid_b f) eqn:V.
  2:{ unfold unordered_assemble in Hs. rewrite verify_valid, V in Hs. inversion Hs; subst. contradiction. }
  rewrite (step_pending _ _ _ _ _ Hs Ho HN V) in Hout.
  destruct (make_room_spec (un_map st) (fr_identifier f) (length (un_map st)) (ui_nodup _ _ H) (ui_max _ _ H) (le_n _))
    as [[E L]|(k & a & G1 & G2 & G3 & G4 & E & L)]; rewrite E in Hout; [contradiction|].
  assert (k = id).
  { destruct (list_eq_dec Byte.byte_eq_dec id k); [auto|]. rewrite get_del_other in Hout by assumption. contradiction. }
  subst k. unfold pending. rewrite map_length. repeat split; auto.
  - rewrite <- get_keys. congruence.
  - intros id' Hi' N'. apply get_keys in Hi'.
    destruct (map_get id' (un_map st)) as [a'|] eqn:G'; [|congruence].
    apply (last_at_lt _ _ _ (as_tick a) (as_tick a')); eauto using ui_last.
Qed.

(** ** Completeness *)

Lemma no_evict tr st id a A g w f :
  un_inv tr st -> map_get id (un_map st) = Some a ->
  filter valid_b (seen tr) = A ++ g :: w -> fr_identifier g = id -> ~ In id (map fr_identifier w) ->
  few_ids 99 (w ++ [f]) ->
  map_get id (make_room (length (un_map st)) (fr_identifier f) (un_map st)) = Some a.
Proof.
  intros I G E Eg Nw (ids & Hl & Hi).
  destruct (make_room_spec (un_map st) (fr_identifier f) (length (un_map st)) (ui_nodup _ _ I) (ui_max _ _ I) (le_n _))
    as [[E1 L]|(k & ak & G1 & G2 & G3 & G4 & E1 & L)]; rewrite E1; [assumption|].
  destruct (list_eq_dec Byte.byte_eq_dec id k) as [<-|N]; [|now rewrite get_del_other by assumption].
  exfalso. rewrite G in G3. inversion G3; subst ak.
  assert (LA : last_at (filter valid_b (seen tr)) id (N.of_nat (length A))) by (exists A, g, w; auto).
  assert (K : incl (fr_identifier f :: map fst (map_del id (un_map st))) ids).
  { intros x [<-|Hx].
    - apply Hi. rewrite map_app, in_app_iff. right. now left.
    - apply del_keys in Hx as [Hx Nx]. apply get_keys in Hx.
      destruct (map_get x (un_map st)) as [ax|] eqn:Gx; [|congruence].
      pose proof (G4 _ _ Gx) as T.
      apply Hi. rewrite map_app, in_app_iff. left.
      destruct (last_at_lt _ id x (as_tick a) (as_tick ax) (ui_last _ _ I _ _ G) (ui_last _ _ I _ _ Gx) T ltac:(congruence))
        as (a2 & g2 & b2 & F1 & F2 & F3 & F4).
      assert (b2 = w).
      { rewrite E in F1. clear - F1 Eg Nw F2 F3. revert a2 F1; induction A as [|y A IH]; intros [|y' a2] F1; cbn in F1.
        - now inversion F1.
        - inversion F1; subst. exfalso. apply Nw. rewrite <- F2. apply in_map. apply in_elt.
        - inversion F1; subst. exfalso. apply F3. apply in_map. apply in_elt.
        - inversion F1; subst. eauto. }
      now subst b2. }
  assert (ND : NoDup (fr_identifier f :: map fst (map_del id (un_map st)))).
  { constructor; [|apply del_nodup, I]. rewrite del_keys, <- get_keys. intros [HH _]. congruence. }
  apply (NoDup_incl_length ND) in K. cbn in K. rewrite map_length, L in K. lia.
Qed.

Lemma filter_last_split {A} (p : A -> bool) (q : A -> Prop) (Q : forall x, {q x} + {~ q x}) l :
  (exists x, In x (filter p l) /\ q x) ->
  exists a g b, filter p l = a ++ g :: b /\ q g /\ Forall (fun x => ~ q x) b.
Proof.
  generalize (filter p l) as m. clear l. intros m.
  induction m as [|x m IH] using rev_ind; intros (y & H1 & H2); [contradiction|].
  destruct (Q x) as [q1|q1].
  - exists m, x, []. auto.
  - apply in_app_iff in H1 as [H1|[->|[]]]; [|contradiction].
    destruct IH as (a & g & b & -> & K1 & K2); [eauto|].
    exists a, g, (b ++ [x]). rewrite <- app_assoc. repeat split; auto. apply Forall_app; auto.
Qed.

Definition piece_parts (fs : list fragment) : Prop :=
  map fr_part fs = map N.of_nat (seq 1 (length fs)).
Lemma piece_nth fs i d :
  piece_parts fs -> (i < length fs)%nat -> fr_part (nth i fs d) = N.of_nat (S i).
Proof.
  intros H Hi. unfold piece_parts in H.
  assert (E : nth i (map fr_part fs) (fr_part d) = nth i (map N.of_nat (seq 1 (length fs))) (N.of_nat 0)).
  { rewrite H. apply nth_indep. now rewrite map_length, seq_length. }
  rewrite !map_nth in E. rewrite E, seq_nth by assumption. lia.
Qed.
Lemma piece_unique fs g g' :
  piece_parts fs -> In g fs -> In g' fs -> fr_part g = fr_part g' -> g = g'.
Proof.
  intros H H1 H2 E. destruct (In_nth _ _ g H1) as (i & L1 & E1). destruct (In_nth _ _ g H2) as (j & L2 & E2).
  pose proof (piece_nth fs i g H L1) as P1. pose proof (piece_nth fs j g H L2) as P2.
  rewrite E1 in P1. rewrite E2 in P2. assert (i = j) by lia. subst j. congruence.
Qed.
Definition version_eq_dec (x y : version) : {x = y} + {x <> y}.
Proof. decide equality. apply N.eq_dec. Defined.
Definition frag_eq_dec (x y : fragment) : {x = y} + {x <> y}.
Proof.
  decide equality; first [apply N.eq_dec | apply (list_eq_dec Byte.byte_eq_dec) | apply version_eq_dec].
Defined.
Lemma pieces_arrived id s r content fs l :
  pieces V4 id s r content fs -> Forall frag_valid fs ->
  (forall g, In g l -> frag_valid g -> fr_identifier g = id -> In g fs) ->
  forall i d, (i < length fs)%nat ->
  first_arrival id (N.of_nat (length fs)) (N.of_nat (S i)) l
  = if in_dec frag_eq_dec (nth i fs d) l
    then Some (nth i fs d) else None.
Proof.
  intros (_ & P & F) V H i d Hi. rewrite Forall_forall in V, F.
  destruct (in_dec _ _ _) as [Hin|Hin].
  - assert (Hg : In (nth i fs d) fs) by now apply nth_In.
    destruct (first_arrival _ _ _ l) as [g|] eqn:E.
    + apply first_arrival_some in E as (E1 & E2 & E3 & E4 & E5). f_equal.
      apply (piece_unique fs); auto. rewrite E5. symmetry. now apply piece_nth.
    + exfalso. eapply first_arrival_none; eauto.
      * apply F; auto.
      * apply F; auto.
      * now apply piece_nth.
  - destruct (first_arrival _ _ _ l) as [g|] eqn:E; [|reflexivity].
    apply first_arrival_some in E as (E1 & E2 & E3 & E4 & E5).
    exfalso. apply Hin. assert (Hg : In (nth i fs d) fs) by now apply nth_In.
    assert (g = nth i fs d) by (apply (piece_unique fs); auto; rewrite E5; symmetry; now apply piece_nth).
    now subst g.
Qed.

Lemma part_in_pieces id s r content fs l d i :
  pieces V4 id s r content fs -> Forall frag_valid fs ->
  (forall g, In g l -> frag_valid g -> fr_identifier g = id -> In g fs) -> (i < length fs)%nat ->
  part_in id (N.of_nat (length fs)) l (S i)
  = if in_dec frag_eq_dec (nth i fs d) l then fr_payload (nth i fs d) else [].
Proof.
  intros HP HV H Hi. unfold part_in. rewrite (pieces_arrived id s r content fs l HP HV H i d Hi).
  now destruct (in_dec _ _ _).
Qed.
Lemma slots_pieces id s r content fs l :
  pieces V4 id s r content fs -> Forall frag_valid fs ->
  (forall g, In g l -> frag_valid g -> fr_identifier g = id -> In g fs) ->
  slots id (N.of_nat (length fs)) l
  = map (fun g => if in_dec frag_eq_dec g l then fr_payload g else []) fs.
Proof.
  intros HP HV H. set (d := mkFragment V3 [] 0 0 0 0 []).
  apply nth_ext with (d := []) (d' := []).
  - now rewrite slots_length, map_length, Nat2N.id.
  - intros i Hi. rewrite slots_length, Nat2N.id in Hi.
    rewrite slots_nth by lia. rewrite (part_in_pieces id s r content fs l d i) by assumption.
    rewrite nth_indep with (d' := (fun g => if in_dec frag_eq_dec g l then fr_payload g else []) d)
      by (rewrite map_length; assumption).
    now rewrite (map_nth (fun g => if in_dec frag_eq_dec g l then fr_payload g else [])).
Qed.
Lemma pieces_size fs l :
  parts_size (map (fun g => if in_dec frag_eq_dec g l then fr_payload g else []) fs)
  <= N.of_nat (length (concat (map fr_payload fs))).
Proof.
  unfold parts_size. induction fs as [|g fs IH]; [cbn; lia|]. cbn [map concat].
  rewrite !app_length. destruct (in_dec _ _ _); cbn [length]; lia.
Qed.
Lemma pieces_all fs l :
  (forall g, In g fs -> In g l) ->
  map (fun g => if in_dec frag_eq_dec g l then fr_payload g else []) fs = map fr_payload fs.
Proof.
  intros H. apply map_ext_in. intros g Hg. destruct (in_dec _ _ _); [reflexivity|]. exfalso; auto.
Qed.

Lemma filter_len {A} (p : A -> bool) l : (length (filter p l) <= length l)%nat.
Proof. induction l as [|x l IH]; cbn; [lia|]. destruct (p x); cbn; lia. Qed.

Section Complete.
  Context (id : bytes) (s r : N) (content : bytes) (fs : list fragment).
  Context (tr0 : list (fragment * asm_result)) (st0 : unordered).
  Context (HP : pieces V4 id s r content fs) (HV : Forall frag_valid fs)
    (Hsize : N.of_nat (length content) <= 104857600) (Hreach : history tr0 st0)
    (Hnew : ~ In id (pending st0)).

  (* what holds of the fragments [l] received since [st0] *)
  Definition stream_ok (l : list fragment) : Prop :=
    (forall g, In g l -> frag_valid g -> fr_identifier g = id -> In g fs)
    /\ (forall a g w b, filter valid_b l = a ++ g :: w ++ b -> fr_identifier g = id ->
         ~ In id (map fr_identifier w) -> few_ids 99 w)
    /\ N.of_nat (length tr0 + length l) < 4294967296.

  Lemma stream_prefix l l' : stream_ok (l ++ l') -> stream_ok l.
  Proof.
    intros (H1 & H2 & H3). repeat split.
    - intros. apply H1; auto. apply in_app_iff; auto.
    - intros a g w b E. apply (H2 a g w (b ++ filter valid_b l')). rewrite filter_app, E.
      rewrite <- !app_assoc. cbn. now rewrite <- app_assoc.
    - rewrite app_length in H3. lia.
  Qed.

  Definition progress (l : list fragment) (st : unordered) : Prop :=
    match map_get id (un_map st) with
    | Some a => as_parts a = slots id (N.of_nat (length fs)) l
                /\ exists g, In g l /\ frag_valid g /\ fr_identifier g = id
    | None => forall g, In g l -> frag_valid g -> fr_identifier g <> id
    end.

  Lemma slots_none n l :
    (forall g, In g l -> frag_valid g -> fr_identifier g <> id) -> slots id n l = repeat [] (N.to_nat n).
  Proof.
    intros H. rewrite <- slots_new with (id := id). unfold slots. apply map_ext_in. intros k _.
    rewrite (proj2 (part_in_empty id n [] k)) by reflexivity. apply part_in_empty.
    destruct (first_arrival _ _ _ l) as [g|] eqn:E; [|reflexivity].
    apply first_arrival_some in E as (E1 & E2 & E3 & _). exfalso. eapply H; eauto.
  Qed.

  Lemma progress_step l f tr st st' o :
    history (tr0 ++ tr) st -> seen tr = l -> progress l st -> stream_ok (l ++ [f]) ->
    unordered_assemble st f = (st', o) ->
    o <> AsmPanic
    /\ (frag_valid f -> fr_identifier f = id ->
        (In f l -> o = AsmErr UnexpectedFragment)
        /\ (~ In f l -> (exists g, In g fs /\ ~ In g (l ++ [f])) -> o = AsmErr IncompleteResult)
        /\ (~ In f l -> (forall g, In g fs -> In g (l ++ [f])) -> o = AsmOk content /\ ~ In id (pending st')))
    /\ ((exists g, In g fs /\ ~ In g (l ++ [f])) -> progress (l ++ [f]) st').
  Proof.
    intros Hh Hl Hpr Hok Hs. pose proof (history_inv _ _ Hh) as I.
    assert (NP : o <> AsmPanic).
    { intros ->. apply (history_panic _ _ _ _ Hh) in Hs. destruct Hok as (_ & _ & Hok).
      rewrite seen_app, Hl in Hs. rewrite app_length in Hok. cbn [length] in Hok.
      assert (length (filter valid_b (seen tr0 ++ l)) <= length tr0 + length l)%nat.
      { pose proof (filter_len valid_b (seen tr0 ++ l)) as F. rewrite app_length in F.
        unfold seen in F at 2. rewrite map_length in F. exact F. }
      lia. }
    split; [assumption|].
    destruct (valid_b f) eqn:V.
    2:{ split.
        - intros Vf. apply valid_b_iff in Vf. congruence.
        - intros _. unfold unordered_assemble in Hs. rewrite verify_valid, V in Hs. inversion Hs; subst st' o.
          unfold progress in *. destruct (map_get id (un_map st)) as [a|].
          + destruct Hpr as (P1 & g & P2). split; [|exists g; rewrite in_app_iff; tauto].
            rewrite slots_same; [assumption|]. intros k _. unfold fits_b. now rewrite V.
          + intros g Hg Vg. apply in_app_iff in Hg as [Hg|[<-|[]]]; [auto|].
            apply valid_b_iff in Vg. congruence. }
    apply valid_b_iff in V as Vf.
    (* the entry of id survives making room *)
    assert (Hev : map_get id (make_room (length (un_map st)) (fr_identifier f) (un_map st))
                  = map_get id (un_map st)).
    { unfold progress in Hpr. destruct (map_get id (un_map st)) as [a|] eqn:G.
      - destruct Hpr as (_ & g & P1 & P2 & P3).
        destruct (filter_last_split valid_b (fun x => fr_identifier x = id)
                   (fun x => list_eq_dec Byte.byte_eq_dec (fr_identifier x) id) l) as (a1 & g1 & w & E1 & E2 & E3).
        { exists g. split; [|assumption]. apply filter_In. split; [assumption|]. now apply valid_b_iff. }
        assert (Nw : ~ In id (map fr_identifier w)).
        { intros Hi. apply in_map_iff in Hi as (x & X1 & X2). rewrite Forall_forall in E3. now apply (E3 x). }
        destruct (list_eq_dec Byte.byte_eq_dec (fr_identifier f) id) as [Ef|Nf].
        + rewrite Ef. destruct (length (un_map st)); [assumption|]. cbn [make_room]. now rewrite G.
        + apply (no_evict (tr0 ++ tr) st id a (filter valid_b (seen tr0) ++ a1) g1 w f); auto.
          * rewrite seen_app, filter_app, Hl, E1, <- app_assoc. reflexivity.
          * destruct Hok as (_ & Hw & _). apply (Hw a1 g1 (w ++ [f]) []).
            -- rewrite filter_app, E1. cbn [filter]. rewrite V. rewrite app_nil_r, <- app_assoc. reflexivity.
            -- assumption.
            -- rewrite map_app, in_app_iff. cbn. intuition.
      - destruct (make_room_spec (un_map st) (fr_identifier f) (length (un_map st)) (ui_nodup _ _ I) (ui_max _ _ I) (le_n _))
          as [[E L]|(k & a & G1 & G2 & G3 & G4 & E & L)]; rewrite E; [assumption|].
        destruct (list_eq_dec Byte.byte_eq_dec id k) as [<-|N]; [apply get_del_same|].
        now rewrite get_del_other. }
    destruct (list_eq_dec Byte.byte_eq_dec (fr_identifier f) id) as [Ef|Nf].
    2:{ split; [intros; contradiction|]. intros _.
        unfold progress in *. rewrite (step_pending _ _ _ _ id Hs NP (not_eq_sym Nf) V), Hev.
        destruct (map_get id (un_map st)) as [a|].
        - destruct Hpr as (P1 & g & P2). split; [|exists g; rewrite in_app_iff; tauto].
          rewrite slots_same; [assumption|]. intros k _. destruct (fits_b _ _ _ f) eqn:B; [|reflexivity].
          apply fits_b_iff in B. exfalso. apply Nf. apply B.
        - intros g Hg Vg. apply in_app_iff in Hg as [Hg|[<-|[]]]; auto. }
    (* f belongs to the message *)
    destruct Hok as (Hin & Hw & Hlen).
    assert (Hff : In f fs) by (apply Hin; auto; apply in_app_iff; right; now left).
    assert (Hinl : forall g, In g l -> frag_valid g -> fr_identifier g = id -> In g fs)
      by (intros; apply Hin; auto; apply in_app_iff; auto).
    pose proof HP as (Hcat & Hparts & Hall). rewrite Forall_forall in Hall.
    destruct (Hall f Hff) as (_ & _ & _ & _ & Htot & Hpay).
    assert (Hfa : first_arrival id (N.of_nat (length fs)) (fr_part f) l = if in_dec frag_eq_dec f l then Some f else None).
    { destruct (In_nth _ _ f Hff) as (i & Li & Ei).
      pose proof (pieces_arrived id s r content fs l HP HV Hinl i f Li) as E. rewrite Ei in E.
      rewrite <- E. f_equal. rewrite <- (piece_nth fs i f Hparts Li). now rewrite Ei. }
    unfold unordered_assemble in Hs. rewrite verify_valid, V in Hs. cbn [negb] in Hs.
    rewrite Ef in Hs, Hev. rewrite Hev in Hs.
    set (m := make_room _ _ _) in *.
    set (store := match map_get id (un_map st) with Some a => a | None => _ end) in *.
    assert (Hsp : as_parts store = slots id (N.of_nat (length fs)) l).
    { unfold store. unfold progress in Hpr. destruct (map_get id (un_map st)); [tauto|].
      cbn [as_parts]. rewrite Htot. symmetry. now apply slots_none. }
    rewrite Hsp in Hs. rewrite slots_length, Nat2N.id, Htot, N.eqb_refl in Hs. cbn [negb] in Hs.
    destruct (un_tick st =? 4294967295); [inversion Hs; congruence|].
    assert (Hp1 : 1 <= fr_part f <= N.of_nat (length fs)) by (destruct Vf; lia).
    rewrite slots_nth in Hs by lia.
    replace (S (N.to_nat (fr_part f - 1))) with (N.to_nat (fr_part f)) in Hs by lia.
    assert (Hpi : part_in id (N.of_nat (length fs)) l (N.to_nat (fr_part f))
                  = if in_dec frag_eq_dec f l then fr_payload f else []).
    { unfold part_in. rewrite N2Nat.id, Hfa. now destruct (in_dec _ _ _). }
    rewrite Hpi in Hs. clear Hpi.
    destruct (in_dec frag_eq_dec f l) as [Hfl|Hfl].
    - destruct (fr_payload f) as [|b p] eqn:EP; [congruence|]. cbn [is_empty negb] in Hs.
      inversion Hs; subst st' o. split.
      + intros _ _. repeat split; intros; auto; contradiction.
      + intros _. unfold progress. cbn [un_map]. rewrite get_set_same. cbn [as_parts]. split.
        * rewrite <- Hsp, Hsp. unfold slots. apply map_ext_in. intros k _. rewrite part_in_snoc. unfold part_in.
          destruct (first_arrival id _ (N.of_nat k) l) eqn:FA; [reflexivity|].
          destruct (fits_b _ _ _ f) eqn:B; [|reflexivity]. apply fits_b_iff in B as (_ & _ & _ & B).
          rewrite <- B in FA. congruence.
        * exists f. rewrite in_app_iff. auto.
    - cbn [is_empty negb] in Hs. rewrite slots_set in Hs by auto.
      rewrite (slots_pieces id s r content fs (l ++ [f]) HP HV Hin) in Hs.
      set (ps := map _ fs) in *.
      assert (Hps : parts_size ps <= MAX_MESSAGE_SIZE).
      { pose proof (pieces_size fs (l ++ [f])) as Z. fold ps in Z. rewrite Hcat in Z.
        change MAX_MESSAGE_SIZE with 104857600. lia. }
      destruct (N.ltb_spec MAX_MESSAGE_SIZE (parts_size ps)); [lia|]. cbn [andb] in Hs.
      destruct (existsb is_empty ps) eqn:EX.
      + inversion Hs; subst st' o. split.
        * intros _ _. split; [intros; contradiction|]. split; [auto|]. intros.
          exfalso. unfold ps in EX. rewrite pieces_all in EX by assumption.
          apply existsb_exists in EX as (x & X1 & X2). apply in_map_iff in X1 as (g & <- & X1).
          destruct (Hall g X1) as (_ & _ & _ & _ & _ & Hg). destruct (fr_payload g); [congruence|discriminate].
        * intros _. unfold progress. cbn [un_map]. rewrite get_set_same. cbn [as_parts]. split.
          -- symmetry. now apply slots_pieces with (1 := HP).
          -- exists f. rewrite in_app_iff. cbn. auto.
      + inversion Hs; subst st' o. 
        assert (Hno : ~ exists g, In g fs /\ ~ In g (l ++ [f])).
        { intros (g & G1 & G2). assert (existsb is_empty ps = true); [|congruence].
          apply existsb_exists. exists []. split; [|reflexivity]. unfold ps. apply in_map_iff. exists g.
          split; [|assumption]. destruct (in_dec _ _ _); [contradiction|reflexivity]. }
        split; [|intros HH; contradiction].
        intros _ _. repeat split; intros; auto; try contradiction.
        * unfold ps. rewrite pieces_all by assumption. now rewrite Hcat.
        * unfold pending. cbn [un_map]. rewrite <- get_keys, get_del_same. congruence.
  Qed.

  Lemma run_progress l :
    stream_ok l -> (exists g, In g fs /\ ~ In g l) ->
    forall st os, run unordered_assemble st0 l = (st, os) ->
    history (tr0 ++ combine l os) st
    /\ progress l st
    /\ (forall i g, nth_error l i = Some g -> frag_valid g -> fr_identifier g = id ->
          nth_error os i = Some (AsmErr UnexpectedFragment) \/ nth_error os i = Some (AsmErr IncompleteResult))
    /\ ~ In AsmPanic os.
  Proof.
    induction l as [|x l IH] using rev_ind; intros Hok (g0 & G1 & G2) st os Hr.
    - cbn in Hr. inversion Hr; subst. cbn. rewrite app_nil_r. split; [assumption|]. split.
      + unfold progress. destruct (map_get id (un_map st)) eqn:G; [|intros g []].
        exfalso. apply Hnew. apply get_keys. congruence.
      + split; [|tauto]. intros [|i] g; discriminate.
    - rewrite run_app in Hr. destruct (run unordered_assemble st0 l) as [st1 o1] eqn:E.
      cbn [run] in Hr. destruct (unordered_assemble st1 x) as [st2 o2] eqn:E2. inversion Hr; subst st os.
      destruct (IH (stream_prefix _ _ Hok)) with (st := st1) (os := o1) as (I1 & I2 & I3 & I4); auto.
      { exists g0. split; [assumption|]. intros HH. apply G2. apply in_app_iff; auto. }
      pose proof (run_length _ _ _ _ _ E) as Hlen.
      assert (Hc : combine (l ++ [x]) (o1 ++ [o2]) = combine l o1 ++ [(x, o2)]).
      { clear - Hlen. revert o1 Hlen; induction l as [|y l IHl]; intros [|o o1] Hlen; cbn in *; try lia; auto.
        f_equal. apply IHl. lia. }
      assert (Hsn : seen (combine l o1) = l).
      { clear - Hlen. revert o1 Hlen; induction l as [|y l IHl]; intros [|o o1] Hlen; cbn in *; try lia; auto.
        f_equal. apply IHl. lia. }
      destruct (progress_step l x (combine l o1) st1 st2 o2 I1 Hsn I2 Hok E2) as (S1 & S2 & S3).
      split; [|split; [|split]].
      + rewrite Hc, app_assoc. econstructor; eauto.
      + apply S3. eauto.
      + intros i g Hi Vg Eg. destruct (Nat.eq_dec i (length l)) as [->|Ni].
        * rewrite nth_error_app2, Nat.sub_diag in Hi by lia. cbn in Hi. inversion Hi; subst g.
          rewrite nth_error_app2 by lia. rewrite Hlen, Nat.sub_diag. cbn.
          destruct (S2 Vg Eg) as (S2a & S2b & _).
          destruct (in_dec frag_eq_dec x l); [left; f_equal; auto|right; f_equal; eauto].
        * assert (i < length l)%nat.
          { assert (i < length (l ++ [x]))%nat by (apply nth_error_Some; congruence).
            rewrite app_length in *; cbn in *; lia. }
          rewrite nth_error_app1 in Hi by assumption. rewrite nth_error_app1 by lia. eauto.
      + rewrite in_app_iff. cbn. intuition.
  Qed.

  Lemma run_complete l f :
    stream_ok (l ++ [f]) -> In f fs -> ~ In f l ->
    (forall g, In g fs -> In g (l ++ [f])) ->
    forall st os, run unordered_assemble st0 l = (st, os) ->
    (forall i g, nth_error l i = Some g -> frag_valid g -> fr_identifier g = id ->
          nth_error os i = Some (AsmErr UnexpectedFragment) \/ nth_error os i = Some (AsmErr IncompleteResult))
    /\ ~ In AsmPanic os
    /\ exists st', unordered_assemble st f = (st', AsmOk content) /\ ~ In id (pending st').
  Proof.
    intros Hok Hf Nf Hall st os Hr.
    destruct (run_progress l (stream_prefix _ _ Hok)) with (st := st) (os := os) as (I1 & I2 & I3 & I4); eauto.
    split; [assumption|]. split; [assumption|].
    destruct (unordered_assemble st f) as [st' o] eqn:E.
    pose proof (run_length _ _ _ _ _ Hr) as Hlen.
    assert (Hsn : seen (combine l os) = l).
    { clear - Hlen. revert os Hlen; induction l as [|y l IHl]; intros [|o os] Hlen; cbn in *; try lia; auto.
      f_equal. apply IHl. lia. }
    destruct (progress_step l f (combine l os) st st' o I1 Hsn I2 Hok E) as (_ & S2 & _).
    rewrite Forall_forall in HV. destruct HP as (_ & _ & HA). rewrite Forall_forall in HA.
    destruct (S2 (HV f Hf) (proj1 (proj2 (HA f Hf)))) as (_ & _ & S3).
    destruct (S3 Nf Hall) as [-> S4]. eauto.
  Qed.
End Complete.
