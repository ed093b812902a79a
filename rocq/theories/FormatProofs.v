(* What the encoders write is in the formats of SpecFormat. *)
From Coq Require Import String Lia ZifyN ZifyNat.
From Verif Require Import Base BaseLemmas Types Crypto Encoding Base64 ClientProfile Messages Fragment FragmentProofs SpecFormat.
Local Open Scope N_scope.
Local Notation length := List.length.

Lemma big_endian_val b : big_endian b = be_val b.
Proof. induction b as [|x b IH]; [reflexivity|]. cbn [big_endian]. rewrite be_val_cons, IH. reflexivity. Qed.
Lemma little_endian_val b : little_endian b = le_val b.
Proof. induction b as [|x b IH]; [reflexivity|]. cbn [little_endian le_val]. now rewrite IH. Qed.
Lemma int_bytes k v : INT k v (be_bytes k v).
Proof. split; [apply be_bytes_length|]. rewrite big_endian_val. apply be_val_be_bytes. Qed.
Lemma le_bytes_ok k v : LE k v (le_bytes k v).
Proof. split; [apply le_bytes_length|]. rewrite little_endian_val. apply le_val_le_bytes. Qed.
Lemma seq1 (P : bytes -> Prop) b : P b -> SEQ [P] b.
Proof. intros H. rewrite <- (app_nil_r b). constructor; [assumption|constructor]. Qed.
Lemma data_ok x : DATA x (write_data x).
Proof. unfold write_data. constructor; [apply int_bytes|]. now apply seq1. Qed.
Lemma mpi_ok v : MPI v (write_mpi v).
Proof.
  unfold write_mpi. destruct (N.eqb_spec v 0) as [->|NZ].
  - exists []. split; [reflexivity|]. split; [discriminate|]. apply (data_ok []).
  - exists (biguint_to_bytes_be v). split; [rewrite big_endian_val; apply be_val_minimal|]. split; [|apply data_ok].
    destruct (biguint_to_bytes_be v) as [|b l] eqn:E; [discriminate|]. cbn. intros X. injection X as ->.
    now apply biguint_to_bytes_be_hd in E.
Qed.
Lemma signed_ok v : SIGNED v (write_i64 v).
Proof.
  unfold write_i64, i64_to_be. split; [apply be_bytes_length|]. rewrite big_endian_val, be_val_be_bytes.
  pose proof (Z.mod_pos_bound v (2 ^ 64) eq_refl). rewrite N.mod_small; [lia|].
  change (256 ^ N.of_nat 8) with (Z.to_N (2 ^ 64)). lia.
Qed.
Lemma raw_ok x : RAW x x. Proof. reflexivity. Qed.
Lemma point_ok p : POINT p (write_ed448_point p).
Proof. unfold write_ed448_point, pt_encode. constructor; [apply le_bytes_ok|]. now apply seq1. Qed.
Lemma scalar_ok s : SCALAR s (write_ed448_scalar s). Proof. apply le_bytes_ok. Qed.

(* the pieces in turn, the last one by [seq1] *)
Ltac seq tac :=
  lazymatch goal with
  | |- SEQ [_] _ => apply seq1; tac
  | |- SEQ (_ :: _) _ => apply SEQ_cons; [tac|seq tac]
  end.
Lemma ring_ok s : RING_SIG s (write_ring_signature s).
Proof. unfold RING_SIG, write_ring_signature. seq ltac:(apply scalar_ok). Qed.
Lemma dsa_key_ok k : DSA_KEY k (write_public_key k).
Proof. unfold DSA_KEY, write_public_key. apply SEQ_cons; [apply int_bytes|]. seq ltac:(apply mpi_ok). Qed.
Lemma dsa_sig_ok s : DSA_SIG s (write_dsa_signature s).
Proof. unfold DSA_SIG, write_dsa_signature. seq ltac:(apply int_bytes). Qed.
Lemma versions_ok vs : encode_versions vs = List.concat (map version_digit vs).
Proof. induction vs as [|v vs IH]; [reflexivity|]. destruct v; cbn [encode_versions map List.concat version_digit app]; rewrite IH; reflexivity. Qed.
Lemma field_ok f : FIELD f (write_field f).
Proof.
  destruct f; cbn [FIELD write_field]; (apply SEQ_cons; [apply int_bytes|]).
  - apply seq1, int_bytes.
  - apply SEQ_cons; [reflexivity|]. apply seq1, point_ok.
  - apply SEQ_cons; [reflexivity|]. apply seq1, point_ok.
  - apply seq1. rewrite versions_ok. apply data_ok.
  - apply seq1, signed_ok.
  - apply seq1, dsa_key_ok.
  - apply seq1, dsa_sig_ok.
Qed.
Lemma fields_ok fs : SEQ (map FIELD fs) (write_fields fs).
Proof. induction fs as [|f fs IH]; [constructor|]. cbn [map]. unfold write_fields. cbn [map List.concat]. constructor; [apply field_ok|exact IH]. Qed.
Lemma profile_ok p : PROFILE p (write_payload p).
Proof.
  unfold PROFILE, write_payload, write_ed_sig. apply SEQ_cons; [apply int_bytes|]. apply SEQ_cons; [apply fields_ok|]. seq ltac:(reflexivity).
Qed.

(* the bytes of a message *)
Lemma content_ok m c : write_content m = Ok c -> SEQ (snd (CONTENT m)) c.
Proof.
  assert (D : forall o, MPI (optional o) (write_mpi (dh_or_zero o))) by (intros []; apply mpi_ok).
  intros H. destruct m as [b|m|m|m|m|m|m|m|m|m]; cbn [write_content] in H; try discriminate;
    try (injection H as <-); cbn [CONTENT snd].
  - unfold write_dh_commit. seq ltac:(apply data_ok).
  - unfold write_dh_key. seq ltac:(apply mpi_ok).
  - unfold write_reveal_sig. seq ltac:(apply data_ok || apply raw_ok).
  - unfold write_sig_msg. seq ltac:(apply data_ok || apply raw_ok).
  - unfold write_data3, write_u8, write_u32. seq ltac:(apply data_ok || apply int_bytes || apply mpi_ok || apply raw_ok).
  - unfold write_identity. seq ltac:(apply profile_ok || apply point_ok || apply mpi_ok).
  - unfold write_authr. seq ltac:(apply profile_ok || apply point_ok || apply mpi_ok || apply ring_ok).
  - unfold write_authi. seq ltac:(apply ring_ok).
  - destruct (Nat.eqb _ _); [|discriminate]. injection H as <-.
    unfold write_data4, write_u8, write_u32. seq ltac:(apply data_ok || apply int_bytes || apply point_ok || apply D || apply raw_ok).
Qed.
Lemma message_ok v s r m b : write_encoded_message (mkEncoded v s r m) = Ok b -> MESSAGE v s r m b.
Proof.
  unfold write_encoded_message. cbn [em_version em_sender em_receiver em_message]. intros H.
  destruct (encode_version v) as [n|x|] eqn:V; try discriminate. cbn [bind] in H.
  destruct (type_code m) as [t|x|] eqn:T; try discriminate. cbn [bind] in H.
  destruct (write_content m) as [c|x|] eqn:W; try discriminate. cbn [bind] in H.
  apply (f_equal (fun x => match x with Ok b => b | _ => [] end)) in H. cbn beta iota in H. subst b.
  unfold MESSAGE. apply SEQ_cons; [|apply SEQ_cons; [|apply SEQ_cons; [apply int_bytes|apply SEQ_cons; [apply int_bytes|now apply content_ok]]]].
  - replace n with (version_number v) by (destruct v; cbn in V |- *; congruence). apply int_bytes.
  - destruct m; cbn in T |- *; try discriminate; injection T as <-; split; reflexivity.
Qed.

(** ** Base64 *)

Lemma symbol_ok i : i < 64 -> SYMBOL i (b64_sym i).
Proof.
  intros L. unfold SYMBOL.
  assert (A : forallb (fun k => match nth_error alphabet k with Some x => byte_eqb x (b64_sym (N.of_nat k)) | None => false end) (List.seq 0 64) = true)
    by (vm_compute; reflexivity).
  rewrite forallb_forall in A. specialize (A (N.to_nat i)). rewrite N2Nat.id in A.
  destruct (nth_error alphabet (N.to_nat i)) as [x|]; [|discriminate A; apply in_seq; lia].
  f_equal. apply byte_eqb_eq. apply A. apply in_seq. lia.
Qed.

Lemma be3 a b c : big_endian [a; b; c] = b2n a * 65536 + b2n b * 256 + b2n c.
Proof. rewrite big_endian_val. unfold be_val. cbn [fold_left]. lia. Qed.
Lemma base64_ok b : BASE64 b (b64_encode b).
Proof.
  assert (K : forall n b, (length b <= n)%nat -> BASE64 b (b64_encode b)); [|now apply (K (length b))]. clear b.
  induction n as [|n IH]; intros b L.
  { destruct b; [constructor|cbn in L; lia]. }
  destruct b as [|x [|y [|z b]]]; [constructor|..]; cbn [b64_encode].
  - pose proof (b2n_lt x).
    apply (B64_one x (b2n x / 4) (b2n x mod 4 * 16)); [|apply symbol_ok..].
    + change (big_endian [x]) with (b2n x * 256 ^ N.of_nat 0 + 0). change (256 ^ N.of_nat 0) with 1. lia.
    + lia.
    + lia.
  - pose proof (b2n_lt x). pose proof (b2n_lt y).
    apply (B64_two x y (b2n x / 4) (b2n x mod 4 * 16 + b2n y / 16) (b2n y mod 16 * 4)); [|apply symbol_ok; lia..].
    rewrite big_endian_val. unfold be_val. cbn [fold_left]. lia.
  - pose proof (b2n_lt x). pose proof (b2n_lt y). pose proof (b2n_lt z).
    apply (B64_three x y z b (b2n x / 4) (b2n x mod 4 * 16 + b2n y / 16) (b2n y mod 16 * 4 + b2n z / 64) (b2n z mod 64)); [|apply symbol_ok; lia..|].
    + rewrite be3. lia.
    + apply IH. cbn [length] in L. lia.
Qed.
Lemma encoded_ok v s r m p : encode_message v s r m = Ok p -> ENCODED v s r m p.
Proof.
  unfold encode_message, serialize_message. intros H. destruct (write_encoded_message _) as [b|x|] eqn:W; try discriminate.
  cbn [bind] in H. apply (f_equal (fun x => match x with Ok b => b | _ => [] end)) in H. cbn beta iota in H. subst p.
  exists b, (b64_encode b). split; [now apply message_ok|]. split; [apply base64_ok|reflexivity].
Qed.

(** ** Fragments and records *)

Lemma hex_ok k v : DIGITS 16 k v (hex_digits k v).
Proof.
  revert v. induction k as [|k IH]; intros v; [reflexivity|]. cbn [DIGITS hex_digits].
  exists (hex_digits k (v / 16)), (v / 16), (v mod 16), (hex_digit (v mod 16)). pose proof (N.mod_lt v 16 ltac:(discriminate)) as L.
  split; [reflexivity|]. split; [pose proof (N.div_mod v 16 ltac:(discriminate)); lia|]. split; [assumption|]. split; [|apply IH].
  revert L. generalize (v mod 16). intros i L.
  assert (A : forallb (fun k => match nth_error digits k with Some x => byte_eqb x (hex_digit (N.of_nat k)) | None => false end) (List.seq 0 16) = true)
    by (vm_compute; reflexivity).
  rewrite forallb_forall in A. specialize (A (N.to_nat i)). rewrite N2Nat.id in A.
  destruct (nth_error digits (N.to_nat i)) as [x|]; [|discriminate A; apply in_seq; lia].
  f_equal. apply byte_eqb_eq. apply A. apply in_seq. lia.
Qed.
Lemma dec_ok k v : DIGITS 10 k v (dec_digits k v).
Proof.
  revert v. induction k as [|k IH]; intros v; [reflexivity|]. cbn [DIGITS dec_digits].
  exists (dec_digits k (v / 10)), (v / 10), (v mod 10), (n2b (48 + v mod 10)). pose proof (N.mod_lt v 10 ltac:(discriminate)) as L.
  split; [reflexivity|]. split; [pose proof (N.div_mod v 10 ltac:(discriminate)); lia|]. split; [assumption|]. split; [|apply IH].
  revert L. generalize (v mod 10). intros i L.
  assert (A : forallb (fun k => match nth_error digits k with Some x => byte_eqb x (n2b (48 + N.of_nat k)) | None => false end) (List.seq 0 10) = true)
    by (vm_compute; reflexivity).
  rewrite forallb_forall in A. specialize (A (N.to_nat i)). rewrite N2Nat.id in A.
  destruct (nth_error digits (N.to_nat i)) as [x|]; [|discriminate A; apply in_seq; lia].
  f_equal. apply byte_eqb_eq. apply A. apply in_seq. lia.
Qed.
Lemma seq_byte (F : bytes -> Prop) fs x b : F [x] -> SEQ fs b -> SEQ (F :: fs) (x :: b).
Proof. intros A B. change (x :: b) with ([x] ++ b). now constructor. Qed.
Ltac parts :=
  lazymatch goal with
  | |- SEQ [_] _ => apply seq1; reflexivity
  | |- SEQ _ (_ :: _) => apply seq_byte; [reflexivity|parts]
  | |- SEQ _ _ => apply SEQ_cons; [apply hex_ok || apply dec_ok || reflexivity|parts]
  end.
Lemma fragment_ok f p : encode_fragment f = Ok p -> FRAGMENT f p.
Proof.
  unfold encode_fragment, FRAGMENT. intros H.
  destruct (fr_version f); try discriminate; destruct (_ || _)%bool; try discriminate;
    apply (f_equal (fun x => match x with Ok b => b | _ => [] end)) in H; cbn beta iota in H; subst p;
    (apply SEQ_cons; [reflexivity|]).
  - cbn [app]. parts.
  - rewrite <- app_assoc, big_endian_val. cbn [app]. parts.
Qed.
Lemma record_ok t b : write_tlv t = Ok b -> RECORD t b.
Proof.
  unfold write_tlv. destruct (_ <? _); [|discriminate]. intros H.
  apply (f_equal (fun x => match x with Ok b => b | _ => [] end)) in H. cbn beta iota in H. subst b.
  unfold RECORD. seq ltac:(apply int_bytes || reflexivity).
Qed.

(** ** The formats leave nothing open *)

Definition determined (P : bytes -> Prop) : Prop := forall a b, P a -> P b -> a = b.
Lemma raw_det x : determined (RAW x). Proof. intros a b -> ->. reflexivity. Qed.
Lemma seq_det Ps : Forall determined Ps -> determined (SEQ Ps).
Proof.
  intros F a b A. revert b. induction A as [|P Ps x a X A IH]; intros b B; inversion B as [|? ? y b' Y B']; subst; [reflexivity|].
  inversion F; subst. rewrite (H1 x y X Y). f_equal. now apply IH.
Qed.
Lemma big_endian_inj a b : List.length a = List.length b -> big_endian a = big_endian b -> a = b.
Proof.
  revert b. induction a as [|x a IH]; intros [|y b] L E; try discriminate; [reflexivity|]. cbn [big_endian] in E. injection L as L.
  assert (K : forall l, big_endian l < 256 ^ N.of_nat (List.length l)).
  { clear. induction l as [|x l IH]; [reflexivity|]. cbn [big_endian List.length]. rewrite Nat2N.inj_succ, N.pow_succ_r'.
    pose proof (b2n_lt x). unfold b2n in H. nia. }
  pose proof (K a) as KA. pose proof (K b) as KB. rewrite <- L in *. clear K. remember (256 ^ N.of_nat (List.length a)) as p eqn:P. clear P.
  assert (Byte.to_N x = Byte.to_N y) as X by nia. assert (big_endian a = big_endian b) as Y by nia.
  rewrite (IH b L Y). f_equal. apply b2n_inj. exact X.
Qed.
Lemma little_endian_inj a b : List.length a = List.length b -> little_endian a = little_endian b -> a = b.
Proof.
  revert b. induction a as [|x a IH]; intros [|y b] L E; try discriminate; [reflexivity|]. cbn [little_endian] in E. injection L as L.
  pose proof (b2n_lt x) as X. pose proof (b2n_lt y) as Y. unfold b2n in X, Y.
  assert (Byte.to_N x = Byte.to_N y) as XY by lia. rewrite (IH b L) by lia. f_equal. apply b2n_inj. exact XY.
Qed.
Lemma int_det k v : determined (INT k v). Proof. intros a b [A B] [A' B']. apply big_endian_inj; congruence. Qed.
Lemma le_det k v : determined (LE k v). Proof. intros a b [A B] [A' B']. apply little_endian_inj; congruence. Qed.
Lemma signed_det v : determined (SIGNED v). Proof. intros a b [A B] [A' B']. apply big_endian_inj; [congruence|]. apply N2Z.inj. congruence. Qed.
Lemma data_det x : determined (DATA x).
Proof. apply seq_det. repeat constructor; [apply int_det|apply raw_det]. Qed.
Lemma mpi_det v : determined (MPI v).
Proof.
  intros a b (x & X & HX & A) (y & Y & HY & B). assert (x = y) as ->; [|eapply data_det; eassumption]. clear A B. subst v.
  assert (K : forall l, big_endian l < 256 ^ N.of_nat (List.length l)).
  { clear. induction l as [|x l IH]; [reflexivity|]. cbn [big_endian List.length]. rewrite Nat2N.inj_succ, N.pow_succ_r'.
    pose proof (b2n_lt x). unfold b2n in H. nia. }
  assert (M : forall l, hd_error l <> Some x00 -> l = [] \/ 256 ^ N.of_nat (List.length l - 1) <= big_endian l).
  { intros [|z l] Z; [now left|right]. cbn [big_endian List.length]. rewrite Nat.sub_1_r. cbn [Nat.pred].
    assert (1 <= Byte.to_N z). { destruct (N.eq_dec (Byte.to_N z) 0) as [E|]; [|lia]. destruct Z. cbn. f_equal. apply b2n_inj. exact E. }
    nia. }
  apply big_endian_inj; [|now symmetry].
  assert (Q : forall x y, hd_error x <> Some x00 -> big_endian y = big_endian x -> (List.length x <= List.length y)%nat).
  { clear - K M. intros x y X E. destruct (M x X) as [->|L]; [cbn; lia|]. rewrite <- E in L. specialize (K y).
    assert (256 ^ N.of_nat (List.length x - 1) < 256 ^ N.of_nat (List.length y)) as P by lia. apply N.pow_lt_mono_r_iff in P; lia. }
  pose proof (Q x y HX Y). pose proof (Q y x HY (eq_sym Y)). lia.
Qed.
Lemma point_det p : determined (POINT p).
Proof. apply seq_det. repeat constructor; [apply le_det|apply raw_det]. Qed.
Lemma scalar_det s : determined (SCALAR s). Proof. apply le_det. Qed.
Ltac det := apply seq_det;
  repeat first [apply Forall_nil | apply Forall_cons;
    [first [apply int_det|apply raw_det|apply mpi_det|apply point_det|apply scalar_det|apply data_det|apply signed_det]|]].
Lemma ring_det s : determined (RING_SIG s). Proof. det. Qed.
Lemma dsa_key_det k : determined (DSA_KEY k). Proof. det. Qed.
Lemma dsa_sig_det k : determined (DSA_SIG k). Proof. det. Qed.
Lemma field_det f : determined (FIELD f).
Proof.
  destruct f; cbn [FIELD]; try solve [det]; apply seq_det; (apply Forall_cons; [apply int_det|]); (apply Forall_cons; [|apply Forall_nil]).
  - apply dsa_key_det.
  - apply dsa_sig_det.
Qed.
Lemma profile_det p : determined (PROFILE p).
Proof.
  apply seq_det. apply Forall_cons; [apply int_det|]. apply Forall_cons; [|repeat constructor; apply raw_det].
  apply seq_det. induction (pl_fields p) as [|f l IH]; constructor; [apply field_det|assumption].
Qed.
Lemma message_det v s r m : determined (MESSAGE v s r m).
Proof.
  apply seq_det. do 4 (apply Forall_cons; [apply int_det|]).
  destruct m; cbn [CONTENT snd];
    repeat first [apply Forall_nil | apply Forall_cons;
      [first [apply int_det|apply raw_det|apply mpi_det|apply point_det|apply scalar_det|apply data_det|apply profile_det|apply ring_det|intros x y []]|]].
Qed.
Lemma symbol_lt i x : SYMBOL i x -> i < 64.
Proof.
  unfold SYMBOL. intros H. assert (N.to_nat i < 64)%nat; [|lia].
  change 64%nat with (List.length alphabet). apply nth_error_Some. congruence.
Qed.
Lemma symbol_det i x y : SYMBOL i x -> SYMBOL i y -> x = y.
Proof. unfold SYMBOL. congruence. Qed.
Lemma base64_det b : determined (BASE64 b).
Proof.
  intros x y H. revert y. induction H as [|a b c rest i j k l w x y z out E A1 A2 A3 A4 _ IH|a b i j k w x y E A1 A2 A3|a i j w x E A1 A2];
    intros o B; inversion B; subst; [reflexivity|..];
    repeat match goal with S : SYMBOL ?i ?x |- _ => lazymatch goal with _ : i < 64 |- _ => fail | _ => pose proof (symbol_lt i x S) end end.
  - match goal with E1 : ?e = i * _ + _ + _ + _, E2 : ?e = ?i' * _ + ?j' * _ + ?k' * _ + ?l' |- _ =>
      assert (i' = i) by lia; assert (j' = j) by lia; assert (k' = k) by lia; assert (l' = l) by lia end. subst.
    repeat f_equal; eauto using symbol_det.
  - match goal with E1 : ?e = i * _ + _ + _, E2 : ?e = ?i' * _ + ?j' * _ + ?k' |- _ =>
      assert (i' = i) by lia; assert (j' = j) by lia; assert (k' = k) by lia end. subst.
    repeat f_equal; eauto using symbol_det.
  - match goal with E1 : ?e = i * _ + _, E2 : ?e = ?i' * _ + ?j' |- _ => assert (i' = i) by lia; assert (j' = j) by lia end. subst.
    repeat f_equal; eauto using symbol_det.
Qed.
Lemma encoded_det v s r m : determined (ENCODED v s r m).
Proof.
  intros a b (x & t & M & B & ->) (x' & t' & M' & B' & ->). rewrite (message_det _ _ _ _ x x' M M') in B.
  now rewrite (base64_det _ t t' B B').
Qed.
Lemma digits_det base k v : determined (DIGITS base k v).
Proof.
  revert v. induction k as [|k IH]; intros v a b; cbn [DIGITS]; [intros -> ->; reflexivity|].
  intros (r & q & i & x & -> & V & L & X & R) (r' & q' & i' & x' & -> & V' & L' & X' & R').
  assert (q' = q /\ i' = i) as [-> ->] by (apply (N.div_mod_unique base); [assumption..|]; rewrite !(N.mul_comm base); congruence). rewrite (IH q r r' R R'). congruence.
Qed.
Lemma fragment_det f : determined (FRAGMENT f).
Proof.
  apply seq_det. destruct (fr_version f); cbn [app];
    repeat first [apply Forall_nil | apply Forall_cons; [first [apply digits_det|apply raw_det]|]].
Qed.
Lemma record_det t : determined (RECORD t). Proof. det. Qed.
