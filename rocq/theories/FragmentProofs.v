(* Proofs about the text form of fragments and about cutting content into fragments. *)
From Verif Require Import Base BaseLemmas Types Crypto Encoding SpecWire EncodingProofs Fragment SpecFragment.
From Coq Require Import Lia ZifyN ZifyNat.
Local Open Scope N_scope.

(** ** Fields *)

Lemma span_run p d b r : forallb p d = true -> p b = false -> span p (d ++ b :: r) = (d, b :: r).
Proof.
  intros Hd Hb. induction d as [|x d IH]; cbn; [now rewrite Hb|].
  cbn in Hd. apply andb_true_iff in Hd as [Hx Hd]. now rewrite Hx, IH.
Qed.
Lemma span_inv p l d r : span p l = (d, r) -> l = d ++ r /\ forallb p d = true.
Proof.
  revert d r; induction l as [|b l IH]; cbn; intros d r H.
  - inversion H; now split.
  - destruct (p b) eqn:E.
    + destruct (span p l) as [d' r'] eqn:E2. inversion H; subst.
      destruct (IH _ _ eq_refl) as [-> Hd]. split; [reflexivity|]. cbn. now rewrite E.
    + inversion H; subst. now split.
Qed.
Lemma match_field_run p lo hi delim d r :
  forallb p d = true -> p delim = false -> (lo <= length d)%nat ->
  match hi with Some h => (length d <= h)%nat | None => True end ->
  match_field p lo hi delim (d ++ delim :: r) = Some (d, r).
Proof.
  intros Hd Hb H1 H2. unfold match_field. rewrite span_run by assumption.
  rewrite (proj2 (Nat.leb_le _ _) H1). cbn [andb].
  replace (match hi with Some h => Nat.leb (length d) h | None => true end) with true.
  - now rewrite byte_eqb_refl.
  - destruct hi; [symmetry; now apply Nat.leb_le|reflexivity].
Qed.
Lemma match_field_inv p lo hi delim l d r :
  match_field p lo hi delim l = Some (d, r) ->
  l = d ++ delim :: r /\ forallb p d = true /\ (lo <= length d)%nat
  /\ match hi with Some h => (length d <= h)%nat | None => True end.
Proof.
  unfold match_field. destruct (span p l) as [d' r'] eqn:E. apply span_inv in E as [-> Hd].
  destruct (Nat.leb lo (length d') && _) eqn:E1; [|discriminate].
  apply andb_true_iff in E1 as [E1 E2].
  destruct r' as [|b r']; [discriminate|]. destruct (byte_eqb b delim) eqn:E3; [|discriminate].
  intros H; inversion H; subst. apply byte_eqb_eq in E3 as ->.
  repeat split; [assumption|now apply Nat.leb_le|]. destruct hi; [now apply Nat.leb_le|exact I].
Qed.
Lemma match_tail_run s r p t pl rest :
  forallb is_hex s = true -> (1 <= length s <= 8)%nat ->
  forallb is_hex r = true -> (1 <= length r <= 8)%nat ->
  forallb is_dec p = true -> (1 <= length p <= 5)%nat ->
  forallb is_dec t = true -> (1 <= length t <= 5)%nat ->
  forallb is_payload pl = true -> (1 <= length pl)%nat ->
  match_tail (s ++ BAR :: r ++ COMMA :: p ++ COMMA :: t ++ COMMA :: pl ++ COMMA :: rest)
  = Some (s, r, p, t, pl).
Proof.
  intros. unfold match_tail, obind.
  rewrite match_field_run by (try reflexivity; try assumption; lia).
  rewrite match_field_run by (try reflexivity; try assumption; lia).
  rewrite match_field_run by (try reflexivity; try assumption; lia).
  rewrite match_field_run by (try reflexivity; try assumption; lia).
  rewrite match_field_run by (try reflexivity; try assumption; lia).
  reflexivity.
Qed.
Lemma match_tail_inv l s r p t pl :
  match_tail l = Some (s, r, p, t, pl) ->
  exists rest,
    l = s ++ BAR :: r ++ COMMA :: p ++ COMMA :: t ++ COMMA :: pl ++ COMMA :: rest
    /\ forallb is_dec p = true /\ (1 <= length p <= 5)%nat
    /\ forallb is_dec t = true /\ (1 <= length t <= 5)%nat
    /\ forallb is_payload pl = true /\ (1 <= length pl)%nat
    /\ forallb is_hex s = true /\ (1 <= length s <= 8)%nat
    /\ forallb is_hex r = true /\ (1 <= length r <= 8)%nat.
Proof.
  unfold match_tail, obind. intros H.
  destruct (match_field is_hex 1 (Some 8%nat) BAR l) as [[s' l1]|] eqn:E1; [|discriminate].
  destruct (match_field is_hex 1 (Some 8%nat) COMMA l1) as [[r' l2]|] eqn:E2; [|discriminate].
  destruct (match_field is_dec 1 (Some 5%nat) COMMA l2) as [[p' l3]|] eqn:E3; [|discriminate].
  destruct (match_field is_dec 1 (Some 5%nat) COMMA l3) as [[t' l4]|] eqn:E4; [|discriminate].
  destruct (match_field is_payload 1 None COMMA l4) as [[pl' l5]|] eqn:E5; [|discriminate].
  inversion H; subst; clear H.
  apply match_field_inv in E1 as (-> & A1 & B1 & C1). apply match_field_inv in E2 as (-> & A2 & B2 & C2).
  apply match_field_inv in E3 as (-> & A3 & B3 & C3). apply match_field_inv in E4 as (-> & A4 & B4 & C4).
  apply match_field_inv in E5 as (-> & A5 & B5 & _).
  exists l5. repeat split; auto; lia.
Qed.

Lemma search_here {A} (m : bytes -> option A) l a : m l = Some a -> search m l = Some a.
Proof. intros H. destruct l; cbn [search]; now rewrite H. Qed.
Lemma search_inv {A} (m : bytes -> option A) l a :
  search m l = Some a -> exists p s, l = p ++ s /\ m s = Some a.
Proof.
  induction l as [|b l IH]; cbn [search]; intros H.
  - destruct (m []) eqn:E; [|discriminate]. exists [], []. now rewrite <- H.
  - destruct (m (b :: l)) eqn:E.
    + exists [], (b :: l). now rewrite <- H.
    + destruct (IH H) as (p & s & -> & Hs). now exists (b :: p), s.
Qed.

(** ** Digits *)

Lemma hex_digit_ok n : n < 16 -> is_hex (hex_digit n) = true /\ hex_val (hex_digit n) = n.
Proof.
  intros H. unfold hex_digit, is_hex, hex_val.
  destruct (n <? 10) eqn:E; rewrite b2n_n2b_small by lia; split.
  all: repeat match goal with |- context [?a <=? ?b] => destruct (N.leb_spec a b) end;
    cbn; try reflexivity; try lia.
Qed.
Lemma fold_hex_app l1 l2 acc :
  fold_left (fun acc b => acc * 16 + hex_val b) (l1 ++ l2) acc
  = fold_left (fun acc b => acc * 16 + hex_val b) l2 (fold_left (fun acc b => acc * 16 + hex_val b) l1 acc).
Proof. apply fold_left_app. Qed.
Lemma hex_digits_length k n : length (hex_digits k n) = k.
Proof. revert n; induction k; intros; cbn; [reflexivity|]. rewrite app_length, IHk. cbn. lia. Qed.
Lemma hex_digits_class k n : forallb is_hex (hex_digits k n) = true.
Proof.
  revert n; induction k; intros; cbn; [reflexivity|]. rewrite forallb_app, IHk. cbn.
  rewrite (proj1 (hex_digit_ok _ (N.mod_lt n 16 ltac:(discriminate)))). reflexivity.
Qed.
Lemma hex_digits_num k n : n < 16 ^ N.of_nat k -> hex_num (hex_digits k n) = n.
Proof.
  unfold hex_num. revert n; induction k; intros n H; cbn [hex_digits].
  - cbn in *. lia.
  - rewrite fold_left_app, IHk.
    + cbn. rewrite (proj2 (hex_digit_ok _ (N.mod_lt n 16 ltac:(discriminate)))).
      pose proof (N.div_mod n 16 ltac:(discriminate)). lia.
    + rewrite Nat2N.inj_succ, N.pow_succ_r' in H. apply N.div_lt_upper_bound; lia.
Qed.
Lemma dec_digit_ok n : n < 10 -> is_dec (n2b (48 + n)) = true /\ b2n (n2b (48 + n)) - 48 = n.
Proof.
  intros H. unfold is_dec. rewrite b2n_n2b_small by lia. split; [|lia].
  apply andb_true_iff; split; lia.
Qed.
Lemma dec_digits_length k n : length (dec_digits k n) = k.
Proof. revert n; induction k; intros; cbn; [reflexivity|]. rewrite app_length, IHk. cbn. lia. Qed.
Lemma dec_digits_class k n : forallb is_dec (dec_digits k n) = true.
Proof.
  revert n; induction k; intros; cbn [dec_digits]; [reflexivity|]. rewrite forallb_app, IHk.
  cbn [forallb andb].
  rewrite (proj1 (dec_digit_ok _ (N.mod_lt n 10 ltac:(discriminate)))). reflexivity.
Qed.
Lemma dec_digits_num k n : n < 10 ^ N.of_nat k -> dec_num (dec_digits k n) = n.
Proof.
  unfold dec_num. revert n; induction k; intros n H; cbn [dec_digits].
  - cbn in *. lia.
  - rewrite fold_left_app, IHk.
    + cbn [fold_left]. rewrite (proj2 (dec_digit_ok _ (N.mod_lt n 10 ltac:(discriminate)))).
      pose proof (N.div_mod n 10 ltac:(discriminate)). lia.
    + rewrite Nat2N.inj_succ, N.pow_succ_r' in H. apply N.div_lt_upper_bound; lia.
Qed.

Lemma hex_num_bound l : forallb is_hex l = true -> hex_num l < 16 ^ N.of_nat (length l).
Proof.
  unfold hex_num. intros H. rewrite <- (rev_involutive l) in *. rewrite rev_length.
  induction (rev l) as [|b m IH]; cbn [rev fold_left length]; [cbn; lia|].
  cbn [rev] in H. rewrite forallb_app in H. apply andb_true_iff in H as [H1 H2].
  rewrite fold_left_app. cbn [fold_left]. specialize (IH H1).
  rewrite Nat2N.inj_succ, N.pow_succ_r'.
  assert (hex_val b < 16).
  { cbn in H2. rewrite andb_true_r in H2. unfold is_hex in H2. unfold hex_val.
    repeat match goal with |- context [?a <=? ?b] => destruct (N.leb_spec a b) end; try lia.
    all: repeat (apply orb_true_iff in H2 as [H2|H2]); apply andb_true_iff in H2 as [? ?]; lia. }
  lia.
Qed.

(** ** Payload characters *)

Lemma payload_char b : is_payload b = true <-> fragment_char b.
Proof. unfold fragment_char. destruct b; vm_compute; intuition (try discriminate; try lia; auto 20). Qed.
Lemma payload_chars l : forallb is_payload l = true <-> Forall fragment_char l.
Proof.
  rewrite forallb_forall, Forall_forall. split; intros H x Hx; apply payload_char; auto.
Qed.

(** ** Validity *)

Lemma valid_b_iff f : valid_b f = true <-> frag_valid f.
Proof.
  unfold valid_b, frag_valid. rewrite !andb_true_iff, orb_true_iff, !N.leb_le, negb_true_iff, Nat.eqb_neq.
  rewrite length_zero_iff_nil, bytes_eqb_eq. split.
  - intros ((((H1 & H2) & H3) & H4) & H5). repeat split; auto.
    intros E. rewrite E in H5. destruct H5 as [H5|H5]; [discriminate|assumption].
  - intros ((H1 & H2) & H3 & H4 & H5). repeat split; auto.
    destruct (fr_version f); cbn; auto.
Qed.
Lemma verify_valid f : verify_fragment f = valid_b f.
Proof.
  unfold verify_fragment, valid_b, MAX_FRAGMENT_SIZE. change (250 * 1024) with 256000.
  destruct (version_eqb (fr_version f) V3), (bytes_eqb (fr_identifier f) _); cbn [negb andb orb];
    destruct (Nat.eqb _ 0); cbn [negb andb orb];
    destruct (_ <=? 256000); cbn [negb andb orb]; rewrite ?andb_false_r, ?andb_true_r, ?orb_true_r, ?orb_false_r; cbn [negb andb orb];
    try reflexivity; rewrite ?negb_orb;
    destruct (N.eqb_spec (fr_total f) 0), (N.eqb_spec (fr_part f) 0), (N.ltb_spec (fr_total f) (fr_part f)),
      (N.leb_spec 1 (fr_part f)), (N.leb_spec (fr_part f) (fr_total f)); cbn; try reflexivity; lia.
Qed.

(** ** Encoding *)

Definition frag_text (f : fragment) : bytes :=
  OTR_FRAGMENT_V3_PREFIX
  ++ match fr_version f with V4 => hex_digits 8 (be_val (fr_identifier f)) ++ [BAR] | _ => [] end
  ++ hex_digits 8 (fr_sender f) ++ [BAR] ++ hex_digits 8 (fr_receiver f) ++ [COMMA]
  ++ dec_digits 5 (fr_part f) ++ [COMMA] ++ dec_digits 5 (fr_total f) ++ [COMMA]
  ++ fr_payload f ++ OTR_FRAGMENT_SUFFIX.

Lemma tag_ok_iff t : t < 4294967296 -> (tag_ok t = true <-> legal_tag t).
Proof.
  intros H. rewrite <- tag_verify_legal by assumption. unfold tag_ok.
  destruct (tag_verify t) eqn:E; [|split; discriminate|split; discriminate].
  apply tag_verify_ok in E as [-> _]. tauto.
Qed.
Lemma legal_tag_bound t : legal_tag t -> t < 4294967296.
Proof. unfold legal_tag; lia. Qed.

Lemma encode_ok f : encodable f -> encode_fragment f = Ok (frag_text f).
Proof.
  intros (Hv & Hs & Hs0 & Hr & Hp & Hpl). unfold encode_fragment, frag_text.
  rewrite (proj2 (tag_ok_iff _ (legal_tag_bound _ Hs)) Hs), (proj2 (tag_ok_iff _ (legal_tag_bound _ Hr)) Hr).
  rewrite (proj2 (N.eqb_neq _ _) Hs0).
  destruct (N.eqb_spec (fr_part f) 0); [lia|]. destruct (N.eqb_spec (fr_total f) 0); [lia|].
  destruct (N.ltb_spec (fr_total f) (fr_part f)); [lia|].
  destruct (Nat.eqb_spec (length (fr_payload f)) 0) as [E|_]; [apply length_zero_iff_nil in E; contradiction|].
  cbn [negb orb]. destruct Hv as [-> | ->]; reflexivity.
Qed.
Lemma frag_text_length f :
  otr_version (fr_version f) ->
  length (frag_text f) = (header_size (fr_version f) + length (fr_payload f))%nat.
Proof.
  intros [E|E]; unfold frag_text; rewrite E; cbn [header_size];
    rewrite !app_length, ?app_length, !hex_digits_length, !dec_digits_length; cbn [length OTR_FRAGMENT_V3_PREFIX OTR_FRAGMENT_SUFFIX]; lia.
Qed.

Lemma count_bar_class (p : byte -> bool) l :
  p BAR = false -> forallb p l = true -> count_occ Byte.byte_eq_dec l BAR = 0%nat.
Proof.
  intros Hp. induction l as [|b l IH]; intros H; [reflexivity|].
  cbn in H. apply andb_true_iff in H as [H1 H2]. rewrite count_occ_cons_neq; [auto|].
  intros ->. congruence.
Qed.
Lemma skip_prefix r : skipn 5 (OTR_FRAGMENT_V3_PREFIX ++ r) = r.
Proof. reflexivity. Qed.
Lemma match_v4_bars l c : match_v4 l = Some c -> (3 <= count_occ Byte.byte_eq_dec l BAR)%nat.
Proof.
  unfold match_v4, obind. destruct (starts_with _ l) eqn:E; [|discriminate].
  apply starts_with_iff in E as [r ->]. rewrite skip_prefix.
  destruct (match_field _ _ _ _ _) as [[i l1]|] eqn:E1; [|discriminate].
  apply match_field_inv in E1 as (-> & _).
  destruct (match_tail l1) as [[[[[s r'] p] t] pl]|] eqn:E2; [|discriminate]. intros _.
  apply match_tail_inv in E2 as (rest & -> & _).
  rewrite !count_occ_app, count_occ_cons_eq, !count_occ_app, count_occ_cons_eq by reflexivity.
  change (count_occ Byte.byte_eq_dec OTR_FRAGMENT_V3_PREFIX BAR) with 1%nat. lia.
Qed.
Lemma search_v4_bars l c : search match_v4 l = Some c -> (3 <= count_occ Byte.byte_eq_dec l BAR)%nat.
Proof.
  intros H. apply search_inv in H as (p & s & -> & H). apply match_v4_bars in H.
  rewrite count_occ_app. lia.
Qed.

Lemma parse_u16_dec n : n < 65536 -> parse_u16 (dec_digits 5 n) = Ok n.
Proof.
  intros H. unfold parse_u16. rewrite dec_digits_num by (cbn; lia).
  now rewrite (proj2 (N.ltb_lt _ _) H).
Qed.
Lemma tag_opt_legal t : legal_tag t -> tag_opt t = Some t.
Proof.
  intros H. unfold tag_opt. now rewrite (proj2 (tag_verify_legal t (legal_tag_bound _ H)) H).
Qed.

Lemma build_text v f i :
  encodable f -> fr_total f < 65536 ->
  build_fragment v (mkCaptures i (hex_digits 8 (fr_sender f)) (hex_digits 8 (fr_receiver f))
                      (dec_digits 5 (fr_part f)) (dec_digits 5 (fr_total f)) (fr_payload f))
  = Ok (Some (mkFragment v (be_bytes 4 (hex_num i)) (fr_sender f) (fr_receiver f) (fr_part f)
                (fr_total f) (fr_payload f))).
Proof.
  intros (Hv & Hs & Hs0 & Hr & Hp & Hpl) Ht. unfold build_fragment.
  cbn [ca_part ca_total ca_sender ca_receiver ca_id ca_payload].
  rewrite !parse_u16_dec by lia. cbn [bind].
  rewrite !hex_digits_num by (apply legal_tag_bound in Hs, Hr; cbn; lia).
  now rewrite !tag_opt_legal.
Qed.

Lemma parse_text f :
  encodable f -> frag_typed f -> (fr_version f = V3 -> fr_identifier f = [x00; x00; x00; x00]) ->
  Forall fragment_char (fr_payload f) -> parse_fragment (frag_text f) = Ok (Some f).
Proof.
  intros He Ht Hid Hpl. pose proof He as (Hv & Hs & Hs0 & Hr & Hp & Hne).
  destruct Ht as (Hi4 & _ & _ & _ & Htot). apply payload_chars in Hpl.
  assert (Hlen : (1 <= length (fr_payload f))%nat) by (destruct (fr_payload f); cbn; [congruence|lia]).
  unfold parse_fragment. destruct Hv as [E|E].
  - (* V3 *)
    destruct (search match_v4 (frag_text f)) eqn:E4.
    + apply search_v4_bars in E4. unfold frag_text in E4. rewrite E in E4.
      rewrite !count_occ_app in E4.
      rewrite !(count_bar_class is_hex _ eq_refl (hex_digits_class _ _)) in E4.
      rewrite !(count_bar_class is_dec _ eq_refl (dec_digits_class _ _)) in E4.
      rewrite (count_bar_class is_payload _ eq_refl Hpl) in E4.
      cbn in E4. lia.
    + erewrite search_here.
      2:{ unfold match_v3, frag_text. rewrite starts_with_app, E, skip_prefix.
          change OTR_FRAGMENT_SUFFIX with (COMMA :: []). cbn [app].
          rewrite match_tail_run; [reflexivity|..];
            rewrite ?hex_digits_length, ?dec_digits_length;
            auto using hex_digits_class, dec_digits_class; lia. }
      rewrite build_text by assumption. do 2 f_equal. rewrite <- E. specialize (Hid E).
      destruct f; cbn in *; subst; reflexivity.
  - erewrite search_here.
    2:{ unfold match_v4, frag_text. rewrite starts_with_app, E, skip_prefix.
        change OTR_FRAGMENT_SUFFIX with (COMMA :: []).
        rewrite <- app_assoc. cbn [app].
        rewrite match_field_run; [|auto using hex_digits_class|reflexivity|rewrite hex_digits_length; lia
          |rewrite hex_digits_length; lia]. cbn [obind].
        rewrite match_tail_run; [reflexivity|..];
          rewrite ?hex_digits_length, ?dec_digits_length;
          auto using hex_digits_class, dec_digits_class; lia. }
    rewrite build_text by assumption. do 2 f_equal. rewrite <- E.
    rewrite hex_digits_num.
    + rewrite <- Hi4, be_bytes_be_val. now destruct f.
    + pose proof (be_val_bound (fr_identifier f)) as B. rewrite Hi4 in B. cbn in B |- *. lia.
Qed.

Lemma text_is_fragment f : match_fragment (frag_text f) = true.
Proof.
  unfold match_fragment, frag_text. apply andb_true_iff; split.
  - apply orb_true_iff; right. apply starts_with_app.
  - apply ends_with_iff. eexists. rewrite !app_assoc. reflexivity.
Qed.

(** ** What parsing yields *)

Lemma match_v3_inv l c :
  match_v3 l = Some c ->
  exists rest, l = OTR_FRAGMENT_V3_PREFIX ++ ca_sender c ++ BAR :: ca_receiver c ++ COMMA :: ca_part c
                   ++ COMMA :: ca_total c ++ COMMA :: ca_payload c ++ COMMA :: rest
    /\ ca_id c = []
    /\ forallb is_dec (ca_part c) = true /\ (1 <= length (ca_part c) <= 5)%nat
    /\ forallb is_dec (ca_total c) = true /\ (1 <= length (ca_total c) <= 5)%nat
    /\ forallb is_payload (ca_payload c) = true /\ (1 <= length (ca_payload c))%nat
    /\ forallb is_hex (ca_sender c) = true /\ (1 <= length (ca_sender c) <= 8)%nat
    /\ forallb is_hex (ca_receiver c) = true /\ (1 <= length (ca_receiver c) <= 8)%nat.
Proof.
  unfold match_v3, obind. destruct (starts_with _ l) eqn:E; [|discriminate].
  apply starts_with_iff in E as [r ->]. rewrite skip_prefix.
  destruct (match_tail r) as [[[[[s r'] p] t] pl]|] eqn:E2; [|discriminate]. intros H; inversion H; subst.
  apply match_tail_inv in E2 as (rest & -> & H2). exists rest. cbn. repeat split; tauto.
Qed.
Lemma match_v4_inv l c :
  match_v4 l = Some c ->
  exists rest, l = OTR_FRAGMENT_V3_PREFIX ++ ca_id c ++ BAR :: ca_sender c ++ BAR :: ca_receiver c
                   ++ COMMA :: ca_part c ++ COMMA :: ca_total c ++ COMMA :: ca_payload c ++ COMMA :: rest
    /\ (forallb is_hex (ca_id c) = true /\ length (ca_id c) = 8%nat)
    /\ forallb is_dec (ca_part c) = true /\ (1 <= length (ca_part c) <= 5)%nat
    /\ forallb is_dec (ca_total c) = true /\ (1 <= length (ca_total c) <= 5)%nat
    /\ forallb is_payload (ca_payload c) = true /\ (1 <= length (ca_payload c))%nat
    /\ forallb is_hex (ca_sender c) = true /\ (1 <= length (ca_sender c) <= 8)%nat
    /\ forallb is_hex (ca_receiver c) = true /\ (1 <= length (ca_receiver c) <= 8)%nat.
Proof.
  unfold match_v4, obind. destruct (starts_with _ l) eqn:E; [|discriminate].
  apply starts_with_iff in E as [r ->]. rewrite skip_prefix.
  destruct (match_field _ _ _ _ _) as [[i l1]|] eqn:E1; [|discriminate].
  apply match_field_inv in E1 as (-> & ? & ? & ?).
  destruct (match_tail l1) as [[[[[s r'] p] t] pl]|] eqn:E2; [|discriminate]. intros H'; inversion H'; subst.
  apply match_tail_inv in E2 as (rest & -> & H2). exists rest. cbn.
  split; [reflexivity|]. split; [split; [assumption|lia]|]. tauto.
Qed.

Lemma parse_u16_panic l : parse_u16 l = Panic -> 65536 <= dec_num l.
Proof. unfold parse_u16. destruct (N.ltb_spec (dec_num l) 65536); [discriminate|auto]. Qed.
Lemma parse_u16_ok l n : parse_u16 l = Ok n -> n = dec_num l /\ n < 65536.
Proof.
  unfold parse_u16. destruct (N.ltb_spec (dec_num l) 65536); [|discriminate].
  intros E; inversion E; subst; auto.
Qed.
Lemma build_panic v c :
  build_fragment v c = Panic -> 65536 <= dec_num (ca_part c) \/ 65536 <= dec_num (ca_total c).
Proof.
  unfold build_fragment. destruct (parse_u16 (ca_part c)) eqn:E1; cbn [bind].
  - destruct (parse_u16 (ca_total c)) eqn:E2; cbn [bind].
    + destruct (tag_opt (hex_num (ca_sender c))), (tag_opt (hex_num (ca_receiver c))); discriminate.
    + discriminate.
    + apply parse_u16_panic in E2. auto.
  - discriminate.
  - apply parse_u16_panic in E1. auto.
Qed.
Lemma build_ok v c f :
  build_fragment v c = Ok (Some f) ->
  fr_version f = v /\ fr_identifier f = be_bytes 4 (hex_num (ca_id c))
  /\ fr_part f < 65536 /\ fr_total f < 65536 /\ fr_payload f = ca_payload c
  /\ fr_sender f = hex_num (ca_sender c) /\ (fr_sender f = 0 \/ 256 <= fr_sender f)
  /\ fr_receiver f = hex_num (ca_receiver c) /\ (fr_receiver f = 0 \/ 256 <= fr_receiver f).
Proof.
  unfold build_fragment. destruct (parse_u16 (ca_part c)) eqn:E1; cbn [bind]; try discriminate.
  destruct (parse_u16 (ca_total c)) eqn:E2; cbn [bind]; try discriminate.
  unfold tag_opt. destruct (tag_verify (hex_num (ca_sender c))) eqn:E3; try discriminate.
  destruct (tag_verify (hex_num (ca_receiver c))) eqn:E4; try discriminate.
  intros H; inversion H; subst; cbn.
  apply parse_u16_ok in E1 as [-> ?], E2 as [-> ?].
  apply tag_verify_ok in E3 as [-> ?], E4 as [-> ?]. repeat split; auto.
Qed.

Lemma dec_num_5 l : forallb is_dec l = true -> (length l <= 4)%nat -> dec_num l < 10000.
Proof.
  intros H HL.
  assert (D : forall b, is_dec b = true -> b2n b - 48 < 10).
  { unfold is_dec. intros b Hb. apply andb_true_iff in Hb as [? ?]. lia. }
  unfold dec_num.
  destruct l as [|a [|b [|c [|d [|e l]]]]]; cbn in HL; try lia; cbn [fold_left] in *;
    cbn [forallb] in H; rewrite ?andb_true_iff in H;
    repeat match goal with H : _ /\ _ |- _ => destruct H end;
    repeat match goal with H : is_dec _ = true |- _ => apply D in H end; lia.
Qed.

Definition infix (l t : bytes) : Prop := exists a b, t = a ++ l ++ b.
Lemma infix_here l b : infix l (l ++ b).
Proof. now exists [], b. Qed.
Lemma infix_app l x t : infix l t -> infix l (x ++ t).
Proof. intros (a & b & ->). exists (x ++ a), b. now rewrite <- app_assoc. Qed.
Lemma infix_cons l x t : infix l t -> infix l (x :: t).
Proof. intros (a & b & ->). now exists (x :: a), b. Qed.
Ltac infix := repeat first [apply infix_here | apply infix_cons | apply infix_app].

(* Parsing crashes only on a five digit number beyond 65535. *)
Lemma parse_panic_number t :
  parse_fragment t = Panic ->
  exists a d b, t = a ++ d ++ b /\ length d = 5%nat /\ forallb is_dec d = true /\ 65536 <= dec_num d.
Proof.
  assert (K : forall l, infix l t -> forallb is_dec l = true -> (1 <= length l <= 5)%nat -> 65536 <= dec_num l ->
            exists a d b, t = a ++ d ++ b /\ length d = 5%nat /\ forallb is_dec d = true
                                   /\ 65536 <= dec_num d).
  { intros l (a & b & ->) H1 H2 H3. exists a, l, b. repeat split; auto.
    destruct (Nat.eq_dec (length l) 5); [assumption|].
    assert (dec_num l < 10000) by (apply dec_num_5; auto; lia). lia. }
  unfold parse_fragment. destruct (search match_v4 t) eqn:E4.
  - intros H. apply build_panic in H. apply search_inv in E4 as (p & s & -> & H4).
    apply match_v4_inv in H4 as (rest & -> & _ & P1 & P2 & T1 & T2 & _).
    destruct H as [H|H]; [apply (K (ca_part c)) | apply (K (ca_total c))]; auto; infix.
  - destruct (search match_v3 t) eqn:E3; [|discriminate].
    intros H. apply build_panic in H. apply search_inv in E3 as (p & s & -> & H3).
    apply match_v3_inv in H3 as (rest & -> & _ & P1 & P2 & T1 & T2 & _).
    destruct H as [H|H]; [apply (K (ca_part c)) | apply (K (ca_total c))]; auto; infix.
Qed.

Lemma parse_ok_fields t f :
  parse_fragment t = Ok (Some f) ->
  otr_version (fr_version f) /\ frag_typed f /\ legal_tag (fr_sender f) /\ legal_tag (fr_receiver f)
  /\ fr_payload f <> [] /\ Forall fragment_char (fr_payload f)
  /\ (fr_version f = V3 -> fr_identifier f = [x00; x00; x00; x00]).
Proof.
  assert (B : forall l, forallb is_hex l = true -> (1 <= length l <= 8)%nat -> hex_num l < 4294967296).
  { intros l H1 H2. apply hex_num_bound in H1.
    assert (16 ^ N.of_nat (length l) <= 16 ^ 8) by (apply N.pow_le_mono_r; lia).
    change (16 ^ 8) with 4294967296 in *. lia. }
  assert (G : forall v c, build_fragment v c = Ok (Some f) ->
     forallb is_payload (ca_payload c) = true /\ (1 <= length (ca_payload c))%nat
    /\ forallb is_hex (ca_sender c) = true /\ (1 <= length (ca_sender c) <= 8)%nat
    /\ forallb is_hex (ca_receiver c) = true /\ (1 <= length (ca_receiver c) <= 8)%nat ->
     fr_version f = v /\ fr_identifier f = be_bytes 4 (hex_num (ca_id c)) /\
     frag_typed f /\ legal_tag (fr_sender f) /\ legal_tag (fr_receiver f)
     /\ fr_payload f <> [] /\ Forall fragment_char (fr_payload f)).
  { intros v c H (P1 & P2 & S1 & S2 & R1 & R2).
    apply build_ok in H as (-> & Hi & Hp & Ht & Hpl & Hs & Hs' & Hr & Hr').
    specialize (B _ S1 S2) as BS. specialize (B _ R1 R2) as BR.
    repeat split; auto.
    - rewrite Hi. apply be_bytes_length.
    - rewrite Hs. assumption.
    - rewrite Hr. assumption.
    - unfold legal_tag. rewrite Hs in *. lia.
    - unfold legal_tag. rewrite Hr in *. lia.
    - rewrite Hpl. intros E. rewrite E in P2. cbn in P2. lia.
    - rewrite Hpl. now apply payload_chars. }
  unfold parse_fragment. destruct (search match_v4 t) eqn:E4.
  - intros H. apply search_inv in E4 as (p & s & -> & H4).
    apply match_v4_inv in H4 as (rest & -> & I & P1 & P2 & T1 & T2 & K).
    destruct (G _ _ H K) as (-> & Hid & G'). split; [right; reflexivity|].
    intuition. discriminate.
  - destruct (search match_v3 t) eqn:E3; [|discriminate].
    intros H. apply search_inv in E3 as (p & s & -> & H3).
    apply match_v3_inv in H3 as (rest & -> & I & P1 & P2 & T1 & T2 & K).
    destruct (G _ _ H K) as (-> & Hid & G'). split; [left; reflexivity|].
    rewrite Hid, I. intuition.
Qed.

(** ** Cutting content *)

Lemma chunks_concat fuel size l :
  (0 < size)%nat -> (length l <= fuel)%nat -> concat (chunks fuel size l) = l.
Proof.
  intros Hs. revert l; induction fuel as [|n IH]; intros l HL.
  - destruct l; cbn in *; [reflexivity|lia].
  - cbn [chunks]. destruct l as [|b l]; [reflexivity|]. cbn [concat].
    rewrite IH; [apply firstn_skipn|]. rewrite skipn_length. cbn [length] in *. lia.
Qed.
Lemma chunks_sizes fuel size l :
  (0 < size)%nat -> Forall (fun c => c <> [] /\ (length c <= size)%nat) (chunks fuel size l).
Proof.
  intros Hs. revert l; induction fuel as [|n IH]; intros l; cbn [chunks]; [constructor|].
  destruct l as [|b l]; [constructor|]. constructor; [|apply IH]. split.
  - destruct size; [lia|]. discriminate.
  - rewrite firstn_length. lia.
Qed.
Definition ceil_div (a b : nat) : nat := (a / b + (if Nat.eqb (a mod b) 0 then 0 else 1))%nat.
Lemma chunks_count fuel size l :
  (0 < size)%nat -> (length l <= fuel)%nat -> length (chunks fuel size l) = ceil_div (length l) size.
Proof.
  intros Hs. revert l; induction fuel as [|n IH]; intros l HL.
  - destruct l; cbn in *; [|lia]. unfold ceil_div. rewrite Nat.div_0_l, Nat.mod_0_l by lia. reflexivity.
  - cbn [chunks]. destruct l as [|b l].
    + unfold ceil_div. cbn [length]. rewrite Nat.div_0_l, Nat.mod_0_l by lia. reflexivity.
    + remember (b :: l) as m. assert (length m <> 0)%nat by (subst; cbn; lia).
      cbn [length]. rewrite IH by (rewrite skipn_length; lia). rewrite skipn_length.
      unfold ceil_div. destruct (le_lt_dec size (length m)).
      * replace (length m) with ((length m - size) + 1 * size)%nat at 3 4 by lia.
        rewrite Nat.div_add, Nat.mod_add by lia. lia.
      * replace (length m - size)%nat with 0%nat by lia.
        rewrite Nat.div_0_l, Nat.mod_0_l by lia. cbn [Nat.eqb].
        rewrite Nat.div_small, Nat.mod_small by lia. destruct (Nat.eqb_spec (length m) 0); lia.
Qed.
Lemma number_spec v id s r total payloads k :
  map fr_payload (number_fragments v id s r total k payloads) = payloads
  /\ map fr_part (number_fragments v id s r total k payloads)
     = map (fun i => k + N.of_nat i) (seq 1 (length payloads))
  /\ Forall (fun f => fr_version f = v /\ fr_identifier f = id /\ fr_sender f = s /\ fr_receiver f = r
                      /\ fr_total f = total) (number_fragments v id s r total k payloads)
  /\ length (number_fragments v id s r total k payloads) = length payloads.
Proof.
  revert k; induction payloads as [|p l IH]; intros k; cbn [number_fragments map seq length].
  - repeat split; constructor.
  - destruct (IH (k + 1)) as (-> & -> & H3 & ->). repeat split.
    + cbn [fr_part]. f_equal. rewrite <- (seq_shift (length l) 1), map_map. apply map_ext. intros a. lia.
    + constructor; [cbn; auto 10|assumption].
Qed.

Lemma fragment_ok max v s r rnd content fs :
  fragment_content max v s r rnd content = Ok fs ->
  otr_version v
  /\ pieces v (match v with V3 => [x00; x00; x00; x00] | _ => rnd end) s r content fs
  /\ N.of_nat (length fs) < 65536 /\ (2 <= length fs)%nat
  /\ Forall (fun f => (header_size v + length (fr_payload f) <= max)%nat) fs.
Proof.
  unfold fragment_content. intros H.
  assert (Hv : otr_version v) by (destruct v; try discriminate; [left|right]; reflexivity).
  split; [assumption|].
  assert (H' : (header_size v < max)%nat /\ (max < length content)%nat
     /\ N.of_nat (ceil_div (length content) (max - header_size v)) < 65536
     /\ fs = number_fragments v (match v with V3 => [x00; x00; x00; x00] | _ => rnd end) s r
               (N.of_nat (ceil_div (length content) (max - header_size v))) 0
               (chunks (length content) (max - header_size v) content)).
  { destruct Hv as [-> | ->]; unfold OTRV3_HEADER_SIZE, OTRV4_HEADER_SIZE in H; cbn [header_size];
      unfold ceil_div.
    all: destruct (Nat.leb_spec max 36) + destruct (Nat.leb_spec max 45); [discriminate|].
    all: destruct (Nat.leb_spec (length content) max); [discriminate|].
    all: match type of H with (if ?b then _ else _) = _ => destruct b eqn:E; [|discriminate] end.
    all: apply N.ltb_lt in E; inversion H; auto. }
  destruct H' as (H1 & H2 & H3 & ->). clear H.
  set (size := (max - header_size v)%nat) in *. assert (Hsz : (0 < size)%nat) by (unfold size; lia).
  pose proof (chunks_concat (length content) size content Hsz (le_n _)) as HC.
  pose proof (chunks_sizes (length content) size content Hsz) as HS.
  pose proof (chunks_count (length content) size content Hsz (le_n _)) as HN.
  destruct (number_spec v (match v with V3 => [x00; x00; x00; x00] | _ => rnd end) s r
              (N.of_nat (ceil_div (length content) size)) (chunks (length content) size content) 0)
    as (P1 & P2 & P3 & P4).
  set (fs := number_fragments _ _ _ _ _ _ _) in *.
  assert (HP : Forall (fun f => fr_payload f <> [] /\ (length (fr_payload f) <= size)%nat) fs).
  { rewrite <- P1 in HS. rewrite Forall_map in HS. assumption. }
  repeat split.
  - rewrite P1. assumption.
  - rewrite P2, P4. apply map_ext. intros a. lia.
  - rewrite P4, HN. rewrite Forall_forall in *. intros f Hf. specialize (P3 f Hf). specialize (HP f Hf). tauto.
  - rewrite P4, HN. assumption.
  - rewrite P4, HN. unfold ceil_div.
    assert (1 <= length content / size)%nat by (apply Nat.div_le_lower_bound; lia).
    destruct (Nat.eqb_spec (length content mod size) 0) as [E|]; [|lia].
    pose proof (Nat.div_mod (length content) size ltac:(lia)) as DM.
    destruct (Nat.eq_dec (length content / size) 1) as [E1|]; [|lia].
    rewrite E, E1 in DM. unfold size in *. lia.
  - rewrite Forall_forall in *. intros f Hf. specialize (HP f Hf). unfold size in *. lia.
Qed.
Lemma fragment_total max v s r rnd content :
  otr_version v -> (header_size v < max)%nat -> (max < length content)%nat ->
  N.of_nat (length content) <= 65535 * N.of_nat (max - header_size v) ->
  exists fs, fragment_content max v s r rnd content = Ok fs.
Proof.
  intros Hv H1 H2 H3. unfold fragment_content.
  assert (Hn : N.of_nat (ceil_div (length content) (max - header_size v)) < 65536).
  { set (size := (max - header_size v)%nat) in *. unfold ceil_div.
    pose proof (Nat.div_mod (length content) size ltac:(lia)) as DM.
    pose proof (Nat.mod_upper_bound (length content) size ltac:(lia)).
    set (q := (length content / size)%nat) in *. set (m := (length content mod size)%nat) in *.
    assert (N.of_nat q <= 65535) by (destruct (N.le_gt_cases (N.of_nat q) 65535); [assumption|nia]).
    destruct (Nat.eqb_spec m 0); [lia|].
    destruct (N.eq_dec (N.of_nat q) 65535); [nia|lia]. }
  apply N.ltb_lt in Hn. unfold ceil_div in Hn.
  destruct Hv as [-> | ->]; cbn [header_size] in *; unfold OTRV3_HEADER_SIZE, OTRV4_HEADER_SIZE.
  all: rewrite (proj2 (Nat.leb_gt _ _) H1), (proj2 (Nat.leb_gt _ _) H2), Hn; eauto.
Qed.
