From Verif Require Import Base BaseLemmas Base64.
Local Open Scope N_scope.

(* The characters the armour may use. *)
Definition b64_char (b : byte) : Prop :=
  let c := b2n b in
  65 <= c <= 90 \/ 97 <= c <= 122 \/ 48 <= c <= 57 \/ c = 43 \/ c = 47 \/ c = 61.

Lemma b64_sym_code v : v < 64 ->
  b2n (b64_sym v) = (if v <? 26 then v + 65 else if v <? 52 then v + 71 else if v <? 62 then v - 4
                     else if v =? 62 then 43 else 47).
Proof.
  intros H. unfold b64_sym. apply b2n_n2b_small.
  destruct (N.ltb_spec v 26); [lia|]. destruct (N.ltb_spec v 52); [lia|].
  destruct (N.ltb_spec v 62); [lia|]. destruct (N.eqb_spec v 62); lia.
Qed.

Lemma b64_val_sym v : v < 64 -> b64_val (b64_sym v) = Some v.
Proof.
  intros H. unfold b64_val. rewrite b64_sym_code by assumption.
  destruct (N.ltb_spec v 26).
  { destruct (N.leb_spec 65 (v + 65)); [|lia]. destruct (N.leb_spec (v + 65) 90); [|lia].
    cbn [andb]. f_equal. lia. }
  destruct (N.ltb_spec v 52).
  { destruct (N.leb_spec 65 (v + 71)); [|lia]. destruct (N.leb_spec (v + 71) 90); [lia|].
    destruct (N.leb_spec 97 (v + 71)); [|lia]. destruct (N.leb_spec (v + 71) 122); [|lia].
    cbn [andb]. f_equal. lia. }
  destruct (N.ltb_spec v 62).
  { destruct (N.leb_spec 65 (v - 4)); [lia|]. destruct (N.leb_spec 97 (v - 4)); [lia|].
    destruct (N.leb_spec 48 (v - 4)); [|lia]. destruct (N.leb_spec (v - 4) 57); [|lia].
    cbn [andb]. f_equal. lia. }
  destruct (N.eqb_spec v 62); [subst; reflexivity|].
  assert (v = 63) by lia. subst. reflexivity.
Qed.

Lemma b64_sym_char v : v < 64 -> b64_char (b64_sym v).
Proof.
  intros H. unfold b64_char. cbv zeta. rewrite b64_sym_code by assumption.
  destruct (N.ltb_spec v 26); [lia|]. destruct (N.ltb_spec v 52); [lia|].
  destruct (N.ltb_spec v 62); [lia|]. destruct (N.eqb_spec v 62); lia.
Qed.

Lemma b64_sym_not_pad v : v < 64 -> byte_eqb (b64_sym v) PAD = false.
Proof.
  intros H. apply byte_eqb_neq. intros E. apply (f_equal b64_val) in E.
  rewrite b64_val_sym in E by assumption. discriminate.
Qed.

Lemma n2b_eq n b : n = b2n b -> n2b n = b.
Proof. intros ->. apply n2b_b2n. Qed.

(* Induction in steps of three. *)
Lemma list_ind3 {A} (P : list A -> Prop) :
  P [] -> (forall a, P [a]) -> (forall a b, P [a; b]) ->
  (forall a b c l, P l -> P (a :: b :: c :: l)) -> forall l, P l.
Proof.
  intros H0 H1 H2 H3.
  assert (H : forall l, P l /\ (forall a, P (a :: l)) /\ (forall a b, P (a :: b :: l))).
  { induction l as [|x l (IH1 & IH2 & IH3)]; [auto|]. split; [apply IH2|]. split; [intros; apply IH3|].
    intros. now apply H3. }
  intros l. apply H.
Qed.

Lemma b64_full_encode a b c :
  b64_full (b64_sym (b2n a / 4)) (b64_sym (b2n a mod 4 * 16 + b2n b / 16))
           (b64_sym (b2n b mod 16 * 4 + b2n c / 64)) (b64_sym (b2n c mod 64)) = Some [a; b; c].
Proof.
  pose proof (b2n_lt a). pose proof (b2n_lt b). pose proof (b2n_lt c).
  unfold b64_full. rewrite !b64_val_sym by lia. f_equal.
  repeat (apply f_equal2); try reflexivity; apply n2b_eq; lia.
Qed.

Lemma b64_round_trip l : b64_decode (b64_encode l) = Some l.
Proof.
  induction l as [|a|a b|a b c l IH] using list_ind3.
  - reflexivity.
  - cbn [b64_encode b64_decode]. rewrite !byte_eqb_refl.
    pose proof (b2n_lt a). unfold b64_last2. rewrite !b64_val_sym by lia.
    replace (b2n a mod 4 * 16 mod 16) with 0 by lia. cbn [N.eqb]. f_equal. f_equal. apply n2b_eq. lia.
  - pose proof (b2n_lt a). pose proof (b2n_lt b).
    cbn [b64_encode b64_decode]. rewrite byte_eqb_refl, b64_sym_not_pad by lia.
    unfold b64_last3. rewrite !b64_val_sym by lia.
    replace (b2n b mod 16 * 4 mod 4) with 0 by lia. cbn [N.eqb]. f_equal.
    repeat (apply f_equal2); try reflexivity; apply n2b_eq; lia.
  - pose proof (b2n_lt c). cbn [b64_encode]. cbn [b64_decode].
    rewrite b64_full_encode. destruct (b64_encode l) eqn:E.
    + rewrite b64_sym_not_pad by lia. cbn in IH. now injection IH as <-.
    + rewrite IH. reflexivity.
Qed.

Lemma b64_encode_chars l : Forall b64_char (b64_encode l).
Proof.
  assert (HP : b64_char PAD) by (unfold b64_char; change (b2n PAD) with 61; lia).
  induction l as [|a|a b|a b c l IH] using list_ind3; cbn [b64_encode].
  - constructor.
  - pose proof (b2n_lt a). repeat (apply Forall_cons || apply Forall_nil); try assumption; apply b64_sym_char; lia.
  - pose proof (b2n_lt a). pose proof (b2n_lt b).
    repeat (apply Forall_cons || apply Forall_nil); try assumption; apply b64_sym_char; lia.
  - pose proof (b2n_lt a). pose proof (b2n_lt b). pose proof (b2n_lt c).
    repeat (apply Forall_cons || apply Forall_nil); try assumption; apply b64_sym_char; lia.
Qed.

Lemma b64_encode_inj a b : b64_encode a = b64_encode b -> a = b.
Proof.
  intros H. apply (f_equal b64_decode) in H. rewrite !b64_round_trip in H. now injection H.
Qed.

(* length of the armour: 4 characters per started group of 3 bytes *)
Lemma b64_encode_length l : length (b64_encode l) = (4 * ((length l + 2) / 3))%nat.
Proof.
  induction l as [|a|a b|a b c l IH] using list_ind3; try reflexivity.
  cbn [b64_encode length]. rewrite IH.
  replace ((S (S (S (length l))) + 2) / 3)%nat with (1 + (length l + 2) / 3)%nat; [lia|].
  replace (S (S (S (length l))) + 2)%nat with (1 * 3 + (length l + 2))%nat by lia.
  rewrite Nat.div_add_l by lia. reflexivity.
Qed.
