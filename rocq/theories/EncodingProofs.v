(* Round trips, consumption and canonicity of the wire primitives (model: Encoding.v). *)
From Verif Require Import Base BaseLemmas Crypto Encoding SpecWire.
From Coq Require Import Lia ZifyBool ZifyNat ZifyN.
Local Open Scope N_scope.


Lemma bind_ok {A B} (r : res A) (f : A -> res B) b :
  bind r f = Ok b -> exists a, r = Ok a /\ f a = Ok b.
Proof. destruct r; cbn; try discriminate. eauto. Qed.

Lemma bind_no_panic {A B} (r : res A) (f : A -> res B) :
  r <> Panic -> (forall a, r = Ok a -> f a <> Panic) -> bind r f <> Panic.
Proof. destruct r; cbn; intros H1 H2; try discriminate; auto. Qed.

Ltac bind_inv H :=
  match type of H with
  | bind ?r _ = Ok _ =>
      let x := fresh "x" in let E := fresh "E" in
      apply bind_ok in H; destruct H as [x [E H]];
      lazymatch type of x with
      | prod _ _ => destruct x
      | _ => idtac
      end
  end.

(** ** integers *)

Lemma be_bytes_2 v : be_bytes 2 v = [n2b (v / 256); n2b v].
Proof. reflexivity. Qed.
Lemma be_bytes_4 v :
  be_bytes 4 v = [n2b (v / 256 / 256 / 256); n2b (v / 256 / 256); n2b (v / 256); n2b v].
Proof. reflexivity. Qed.

Lemma read_u8_write b rest : read_u8 (write_u8 b ++ rest) = Ok (b, rest).
Proof. reflexivity. Qed.

Lemma read_u16_write v rest : v < 65536 -> read_u16 (write_u16 v ++ rest) = Ok (v, rest).
Proof.
  intros H. unfold write_u16. rewrite be_bytes_2. cbn [app read_u16].
  rewrite !b2n_n2b. do 2 f_equal. lia.
Qed.

Lemma read_u16_le_write v rest : v < 65536 -> read_u16_le (write_u16_le v ++ rest) = Ok (v, rest).
Proof.
  intros H. unfold write_u16_le. cbn [le_bytes app read_u16_le].
  rewrite !b2n_n2b. do 2 f_equal. lia.
Qed.

Lemma read_u32_write v rest : v < 4294967296 -> read_u32 (write_u32 v ++ rest) = Ok (v, rest).
Proof.
  intros H. unfold write_u32. rewrite be_bytes_4. cbn [app read_u32].
  rewrite !b2n_n2b. do 2 f_equal.
  rewrite !N.div_div by lia. lia.
Qed.

Lemma read_u16_exact buf v rest :
  read_u16 buf = Ok (v, rest) -> v < 65536 /\ buf = write_u16 v ++ rest.
Proof.
  destruct buf as [|b0 [|b1 r]]; cbn [read_u16]; try discriminate. intros H. injection H as <- <-.
  pose proof (b2n_lt b0). pose proof (b2n_lt b1). split; [lia|].
  unfold write_u16. rewrite be_bytes_2. cbn [app].
  f_equal; [|f_equal].
  - replace ((b2n b0 * 256 + b2n b1) / 256) with (b2n b0) by lia. now rewrite n2b_b2n.
  - rewrite <- n2b_mod. replace ((b2n b0 * 256 + b2n b1) mod 256) with (b2n b1) by lia.
    now rewrite n2b_b2n.
Qed.

Lemma read_u16_le_exact buf v rest :
  read_u16_le buf = Ok (v, rest) -> v < 65536 /\ buf = write_u16_le v ++ rest.
Proof.
  destruct buf as [|b0 [|b1 r]]; cbn [read_u16_le]; try discriminate. intros H. injection H as <- <-.
  pose proof (b2n_lt b0). pose proof (b2n_lt b1). split; [lia|].
  unfold write_u16_le. cbn [le_bytes app].
  f_equal; [|f_equal].
  - rewrite <- n2b_mod. replace ((b2n b1 * 256 + b2n b0) mod 256) with (b2n b0) by lia.
    now rewrite n2b_b2n.
  - replace ((b2n b1 * 256 + b2n b0) / 256) with (b2n b1) by lia. now rewrite n2b_b2n.
Qed.

Lemma be_val_4 b0 b1 b2 b3 :
  be_val [b0; b1; b2; b3] = b2n b0 * 16777216 + b2n b1 * 65536 + b2n b2 * 256 + b2n b3.
Proof. unfold be_val. cbn [fold_left]. lia. Qed.

Lemma read_u32_exact buf v rest :
  read_u32 buf = Ok (v, rest) -> v < 4294967296 /\ buf = write_u32 v ++ rest.
Proof.
  destruct buf as [|b0 [|b1 [|b2 [|b3 r]]]]; cbn [read_u32]; try discriminate.
  intros H. injection H as <- <-. rewrite <- be_val_4. split.
  - pose proof (be_val_bound [b0; b1; b2; b3]) as B. exact B.
  - unfold write_u32. change 4%nat with (length [b0; b1; b2; b3]).
    rewrite be_bytes_be_val. reflexivity.
Qed.

Lemma write_u32_length v : length (write_u32 v) = 4%nat.
Proof. apply be_bytes_length. Qed.
Lemma write_u16_length v : length (write_u16 v) = 2%nat.
Proof. apply be_bytes_length. Qed.

Lemma read_u32_safe : reader_safe read_u32.
Proof. intros buf. destruct buf as [|? [|? [|? [|? ?]]]]; cbn; discriminate. Qed.
Lemma read_u16_safe : reader_safe read_u16.
Proof. intros buf. destruct buf as [|? [|? ?]]; cbn; discriminate. Qed.
Lemma read_u16_le_safe : reader_safe read_u16_le.
Proof. intros buf. destruct buf as [|? [|? ?]]; cbn; discriminate. Qed.
Lemma read_u8_safe : reader_safe read_u8.
Proof. intros buf. destruct buf; cbn; discriminate. Qed.
Lemma read_u8_exact buf v rest : read_u8 buf = Ok (v, rest) -> buf = write_u8 v ++ rest.
Proof. destruct buf; cbn; try discriminate. now intros [= -> ->]. Qed.

Lemma read_fixed_write n v rest : length v = n -> read_fixed n (v ++ rest) = Ok (v, rest).
Proof. apply take_bytes_app. Qed.
Lemma read_fixed_exact n buf v rest :
  read_fixed n buf = Ok (v, rest) -> buf = v ++ rest /\ length v = n.
Proof. apply take_bytes_ok. Qed.
Lemma read_fixed_safe n : reader_safe (read_fixed n).
Proof. intros buf. apply take_bytes_no_panic. Qed.


Lemma i64_round_trip z : i64_range z -> i64_of_be (i64_to_be z) = z.
Proof.
  intros [H1 H2]. unfold i64_of_be, i64_to_be.
  assert (B : (0 <= z mod 2 ^ 64 < 2 ^ 64)%Z) by (apply Z.mod_pos_bound; lia).
  rewrite be_val_be_bytes_small.
  2:{ change (256 ^ N.of_nat 8) with (Z.to_N (2 ^ 64)). apply Z2N.inj_lt; lia. }
  rewrite Z2N.id by lia.
  change (2 ^ 64)%Z with 18446744073709551616%Z in *.
  change (2 ^ 63)%Z with 9223372036854775808%Z in *.
  destruct (Z.ltb_spec (z mod 18446744073709551616) 9223372036854775808); lia.
Qed.

Lemma i64_of_be_range l : length l = 8%nat -> i64_range (i64_of_be l).
Proof.
  intros H. unfold i64_range, i64_of_be. pose proof (be_val_bound l) as B. rewrite H in B.
  change (256 ^ N.of_nat 8) with 18446744073709551616 in B.
  change (2 ^ 64)%Z with 18446744073709551616%Z in *.
  change (2 ^ 63)%Z with 9223372036854775808%Z in *.
  destruct (Z.ltb_spec (Z.of_N (be_val l)) 9223372036854775808); lia.
Qed.

Lemma i64_to_of l : length l = 8%nat -> i64_to_be (i64_of_be l) = l.
Proof.
  intros H. unfold i64_to_be, i64_of_be. pose proof (be_val_bound l) as B. rewrite H in B.
  change (256 ^ N.of_nat 8) with 18446744073709551616 in B.
  change (2 ^ 64)%Z with 18446744073709551616%Z in *.
  change (2 ^ 63)%Z with 9223372036854775808%Z in *.
  replace (Z.to_N _) with (be_val l).
  - rewrite <- H. apply be_bytes_be_val.
  - destruct (Z.ltb_spec (Z.of_N (be_val l)) 9223372036854775808); lia.
Qed.

Lemma read_i64_write z rest : i64_range z -> read_i64 (write_i64 z ++ rest) = Ok (z, rest).
Proof.
  intros H. unfold read_i64, write_i64. rewrite read_fixed_write by apply be_bytes_length.
  cbn [bind]. now rewrite i64_round_trip.
Qed.
Lemma read_i64_exact buf z rest :
  read_i64 buf = Ok (z, rest) -> i64_range z /\ buf = write_i64 z ++ rest.
Proof.
  unfold read_i64. intros H. bind_inv H. injection H as <- <-.
  apply read_fixed_exact in E. destruct E as [-> HL]. split; [now apply i64_of_be_range|].
  unfold write_i64. now rewrite i64_to_of.
Qed.
Lemma read_i64_safe : reader_safe read_i64.
Proof.
  intros buf. apply bind_no_panic; [apply read_fixed_safe|]. intros [? ?] _. discriminate.
Qed.

Lemma tag_verify_legal t : t < 4294967296 -> (tag_verify t = Ok t <-> legal_tag t).
Proof.
  intros H. unfold tag_verify, INSTANCE_MIN_VALID, legal_tag.
  destruct (N.ltb_spec 0 t), (N.ltb_spec t 256); cbn [andb]; split; intros; try discriminate; try lia;
    reflexivity.
Qed.
Lemma tag_verify_ok t t' : tag_verify t = Ok t' -> t' = t /\ (t = 0 \/ 256 <= t).
Proof.
  unfold tag_verify, INSTANCE_MIN_VALID.
  destruct (N.ltb_spec 0 t), (N.ltb_spec t 256); cbn [andb]; intros [=]; lia.
Qed.
Lemma tag_verify_safe t : tag_verify t <> Panic.
Proof. unfold tag_verify. destruct (_ && _); discriminate. Qed.

Lemma read_instance_tag_write t rest :
  legal_tag t -> read_instance_tag (write_u32 t ++ rest) = Ok (t, rest).
Proof.
  intros H. assert (t < 4294967296) by (destruct H; lia).
  unfold read_instance_tag. rewrite read_u32_write by assumption. cbn [bind].
  now rewrite (proj2 (tag_verify_legal t H0) H).
Qed.
Lemma read_instance_tag_exact buf t rest :
  read_instance_tag buf = Ok (t, rest) -> legal_tag t /\ buf = write_u32 t ++ rest.
Proof.
  unfold read_instance_tag. intros H. bind_inv H. bind_inv H. injection H as <- <-.
  apply read_u32_exact in E. destruct E as [B ->].
  apply tag_verify_ok in E0. destruct E0 as [-> E0]. split; [|reflexivity].
  unfold legal_tag. lia.
Qed.
Lemma read_instance_tag_safe : reader_safe read_instance_tag.
Proof.
  intros buf. apply bind_no_panic; [apply read_u32_safe|]. intros [v r] _.
  apply bind_no_panic; [apply tag_verify_safe|discriminate].
Qed.

(** ** DATA and MPI *)

Lemma read_data_write v rest :
  N.of_nat (length v) < 4294967296 -> read_data (write_data v ++ rest) = Ok (v, rest).
Proof.
  intros H. unfold read_data, write_data. rewrite <- app_assoc, read_u32_write by assumption.
  cbn [bind]. rewrite app_length.
  destruct (N.ltb_spec (N.of_nat (length v + length rest)) (N.of_nat (length v))); [lia|].
  apply take_bytes_app. lia.
Qed.
Lemma read_data_exact buf v rest :
  read_data buf = Ok (v, rest) -> N.of_nat (length v) < 4294967296 /\ buf = write_data v ++ rest.
Proof.
  unfold read_data. intros H. bind_inv H. apply read_u32_exact in E. destruct E as [B ->].
  destruct (N.ltb_spec (N.of_nat (length l)) n); [discriminate|].
  apply take_bytes_ok in H. destruct H as [-> HL].
  assert (n = N.of_nat (length v)) by lia. subst n. split; [lia|].
  unfold write_data. now rewrite <- app_assoc.
Qed.
Lemma read_data_safe : reader_safe read_data.
Proof.
  intros buf. apply bind_no_panic; [apply read_u32_safe|]. intros [v r] _.
  destruct (_ <? _); [discriminate|]. apply take_bytes_no_panic.
Qed.


Lemma write_mpi_nonzero v :
  v <> 0 -> write_mpi v = write_data (be_bytes (byte_len v) v).
Proof.
  intros H. unfold write_mpi, biguint_to_bytes_be, write_data.
  destruct (N.eqb_spec v 0); [contradiction|]. reflexivity.
Qed.

Lemma read_mpi_write v rest : mpi_range v -> read_mpi (write_mpi v ++ rest) = Ok (v, rest).
Proof.
  intros H. unfold read_mpi. destruct (N.eq_dec v 0) as [->|Hv].
  - unfold write_mpi. rewrite N.eqb_refl. now rewrite read_u32_write by lia.
  - rewrite write_mpi_nonzero by assumption. unfold write_data.
    rewrite be_bytes_length, <- app_assoc, read_u32_write by exact H. cbn [bind].
    pose proof (byte_len_pos v Hv).
    destruct (N.eqb_spec (N.of_nat (byte_len v)) 0); [lia|].
    rewrite app_length, be_bytes_length.
    destruct (N.ltb_spec (N.of_nat (byte_len v + length rest)) (N.of_nat (byte_len v))); [lia|].
    rewrite take_bytes_app by (rewrite be_bytes_length; lia). cbn [bind].
    now rewrite be_val_be_bytes_small by apply byte_len_bound.
Qed.

Lemma read_mpi_ok buf v rest :
  read_mpi buf = Ok (v, rest) ->
  exists digits, N.of_nat (length digits) < 4294967296
    /\ buf = write_u32 (N.of_nat (length digits)) ++ digits ++ rest /\ v = be_val digits.
Proof.
  unfold read_mpi. intros H. bind_inv H. apply read_u32_exact in E. destruct E as [B ->].
  destruct (N.eqb_spec n 0).
  - subst. injection H as <- <-. exists []. now cbn.
  - destruct (N.ltb_spec (N.of_nat (length l)) n); [discriminate|].
    bind_inv H. injection H as <- <-. apply take_bytes_ok in E. destruct E as [-> HL].
    exists l0. assert (n = N.of_nat (length l0)) by lia. subst n. repeat split; lia.
Qed.
Lemma read_mpi_safe : reader_safe read_mpi.
Proof.
  intros buf. apply bind_no_panic; [apply read_u32_safe|]. intros [v r] _.
  destruct (_ =? _); [discriminate|]. destruct (_ <? _); [discriminate|].
  apply bind_no_panic; [apply take_bytes_no_panic|]. intros [? ?] _. discriminate.
Qed.

Lemma read_mpi_range buf v rest : read_mpi buf = Ok (v, rest) -> mpi_range v.
Proof.
  intros H. apply read_mpi_ok in H. destruct H as (d & HL & _ & ->). unfold mpi_range.
  pose proof (byte_len_le (be_val d) (length d) (be_val_bound d)). lia.
Qed.

Lemma read_mpi_shorter buf v rest : read_mpi buf = Ok (v, rest) -> (length rest + 4 <= length buf)%nat.
Proof.
  intros H. apply read_mpi_ok in H. destruct H as (d & _ & -> & _).
  rewrite !app_length, write_u32_length. lia.
Qed.

Lemma read_mpis_write vs : forall fuel rest,
  Forall mpi_range vs -> (length vs <= fuel)%nat ->
  read_mpis fuel (N.of_nat (length vs)) (concat (map write_mpi vs) ++ rest) = Ok (vs, rest).
Proof.
  induction vs as [|v vs IH]; intros fuel rest HF HL.
  - destruct fuel; reflexivity.
  - cbn [length] in HL. destruct fuel as [|fuel]; [lia|]. inversion HF; subst.
    cbn [read_mpis]. destruct (N.eqb_spec (N.of_nat (length (v :: vs))) 0); [cbn [length] in *; lia|].
    cbn [map concat]. rewrite <- app_assoc, read_mpi_write by assumption. cbn [bind].
    replace (N.of_nat (length (v :: vs)) - 1) with (N.of_nat (length vs)) by (cbn [length]; lia).
    rewrite IH by (try assumption; lia). reflexivity.
Qed.

Lemma concat_mpi_length vs : (4 * length vs <= length (concat (map write_mpi vs)))%nat.
Proof.
  induction vs as [|v vs IH]; [cbn; lia|]. cbn [map concat length]. rewrite app_length.
  assert (4 <= length (write_mpi v))%nat.
  { unfold write_mpi. destruct (v =? 0); rewrite ?app_length, write_u32_length; lia. }
  lia.
Qed.

Lemma read_mpi_sequence_write vs rest :
  Forall mpi_range vs -> N.of_nat (length vs) < 4294967296 ->
  read_mpi_sequence (write_mpi_sequence vs ++ rest) = Ok (vs, rest).
Proof.
  intros HF HL. unfold read_mpi_sequence, write_mpi_sequence.
  rewrite <- app_assoc, read_u32_write by assumption. cbn [bind].
  apply read_mpis_write; [assumption|]. rewrite app_length.
  pose proof (concat_mpi_length vs). lia.
Qed.

Lemma read_mpis_safe fuel : forall count buf, read_mpis fuel count buf <> Panic.
Proof.
  induction fuel as [|fuel IH]; intros count buf; cbn [read_mpis]; destruct (count =? 0); try discriminate.
  apply bind_no_panic; [apply read_mpi_safe|]. intros [v r] _.
  apply bind_no_panic; [apply IH|]. intros [? ?] _. discriminate.
Qed.
Lemma read_mpi_sequence_safe : reader_safe read_mpi_sequence.
Proof.
  intros buf. apply bind_no_panic; [apply read_u32_safe|]. intros [? ?] _. apply read_mpis_safe.
Qed.

(* The fuel never matters: with at least (length buf) fuel the loop behaves as the unbounded one. *)
Lemma read_mpis_fuel fuel : forall fuel' count buf,
  (length buf <= fuel)%nat -> (length buf <= fuel')%nat ->
  read_mpis fuel count buf = read_mpis fuel' count buf.
Proof.
  induction fuel as [|fuel IH]; intros [|fuel'] count buf H1 H2; cbn [read_mpis];
    destruct (count =? 0); try reflexivity.
  - assert (buf = []) by (destruct buf; [reflexivity|cbn [length] in H1; lia]). subst. reflexivity.
  - assert (buf = []) by (destruct buf; [reflexivity|cbn [length] in H2; lia]). subst. reflexivity.
  - destruct (read_mpi buf) as [[v r]| |] eqn:E; cbn [bind]; try reflexivity.
    apply read_mpi_shorter in E. rewrite (IH fuel' (count - 1) r) by lia. reflexivity.
Qed.

Lemma read_mpis_ok fuel : forall count buf vs rest,
  read_mpis fuel count buf = Ok (vs, rest) ->
  N.of_nat (length vs) = count /\ (exists pre, buf = pre ++ rest) /\ Forall mpi_range vs.
Proof.
  induction fuel as [|fuel IH]; intros count buf vs rest; cbn [read_mpis]; destruct (N.eqb_spec count 0);
    try discriminate.
  - intros [= <- <-]. split; [now subst|]. split; [now exists []|constructor].
  - intros [= <- <-]. split; [now subst|]. split; [now exists []|constructor].
  - intros H. bind_inv H. bind_inv H. injection H as <- <-.
    destruct (IH _ _ _ _ E0) as (HL & [pre ->] & HF). split; [cbn [length]; lia|].
    pose proof (read_mpi_range _ _ _ E). apply read_mpi_ok in E. destruct E as (d & _ & -> & _).
    split; [|now constructor].
    exists (write_u32 (N.of_nat (length d)) ++ d ++ pre). now rewrite !app_assoc.
Qed.

(** ** TLVs and NUL-terminated strings *)



Lemma write_tlv_ok t : N.of_nat (length (tlv_value t)) < 65536 -> write_tlv t = Ok (tlv_bytes t).
Proof. intros H. unfold write_tlv. now destruct (N.ltb_spec (N.of_nat (length (tlv_value t))) 65536); [|lia]. Qed.

Lemma read_tlv_write t rest : tlv_range t -> read_tlv (tlv_bytes t ++ rest) = Ok (t, rest).
Proof.
  intros [H1 H2]. unfold read_tlv, tlv_bytes. rewrite <- !app_assoc.
  rewrite read_u16_write by assumption. cbn [bind]. rewrite read_u16_write by assumption. cbn [bind].
  rewrite take_bytes_app by lia. cbn [bind]. now destruct t.
Qed.

Lemma read_tlv_exact buf t rest :
  read_tlv buf = Ok (t, rest) -> tlv_range t /\ buf = tlv_bytes t ++ rest.
Proof.
  unfold read_tlv. intros H. bind_inv H. bind_inv H. bind_inv H. injection H as <- <-.
  apply read_u16_exact in E. destruct E as [B1 ->].
  apply read_u16_exact in E0. destruct E0 as [B2 ->].
  apply take_bytes_ok in E1. destruct E1 as [-> HL].
  assert (n0 = N.of_nat (length l1)) by lia. subst n0.
  split; [split; cbn; assumption|]. unfold tlv_bytes. cbn [tlv_type tlv_value]. now rewrite <- !app_assoc.
Qed.
Lemma read_tlv_safe : reader_safe read_tlv.
Proof.
  intros buf. apply bind_no_panic; [apply read_u16_safe|]. intros [? ?] _.
  apply bind_no_panic; [apply read_u16_safe|]. intros [? ?] _.
  apply bind_no_panic; [apply take_bytes_no_panic|]. intros [? ?] _. discriminate.
Qed.

Lemma tlv_bytes_length t : length (tlv_bytes t) = (4 + length (tlv_value t))%nat.
Proof. unfold tlv_bytes. rewrite !app_length, !write_u16_length. lia. Qed.

Lemma read_tlvs_loop_write ts : forall fuel,
  Forall tlv_range ts -> (length (concat (map tlv_bytes ts)) <= fuel)%nat ->
  read_tlvs_loop fuel (concat (map tlv_bytes ts)) = Ok ts.
Proof.
  induction ts as [|t ts IH]; intros fuel HF HL.
  - destruct fuel; reflexivity.
  - inversion HF; subst. cbn [map concat] in *. rewrite app_length, tlv_bytes_length in HL.
    destruct fuel as [|fuel]; [lia|].
    assert (Hne : tlv_bytes t ++ concat (map tlv_bytes ts) <> []).
    { intros E. apply (f_equal (@length _)) in E. rewrite app_length, tlv_bytes_length in E. cbn in E. lia. }
    cbn [read_tlvs_loop]. destruct (tlv_bytes t ++ concat (map tlv_bytes ts)) eqn:E; [contradiction|].
    rewrite <- E, read_tlv_write by assumption. cbn [bind]. now rewrite IH by (try assumption; lia).
Qed.

Lemma read_tlvs_write ts : Forall tlv_range ts -> read_tlvs (concat (map tlv_bytes ts)) = Ok ts.
Proof. intros H. now apply read_tlvs_loop_write. Qed.

Lemma read_tlvs_loop_exact fuel : forall buf ts,
  read_tlvs_loop fuel buf = Ok ts -> Forall tlv_range ts /\ buf = concat (map tlv_bytes ts).
Proof.
  induction fuel as [|fuel IH]; intros [|b buf] ts; cbn [read_tlvs_loop]; try discriminate;
    try (intros [= <-]; now repeat constructor).
  intros H. bind_inv H. bind_inv H. injection H as <-. apply IH in E0. destruct E0 as [HF ->].
  apply read_tlv_exact in E. destruct E as [HR ->]. split; [now constructor|reflexivity].
Qed.

Lemma read_tlvs_loop_safe fuel : forall buf, read_tlvs_loop fuel buf <> Panic.
Proof.
  induction fuel as [|fuel IH]; intros [|b buf]; cbn [read_tlvs_loop]; try discriminate.
  apply bind_no_panic; [apply read_tlv_safe|]. intros [? ?] _.
  apply bind_no_panic; [apply IH|]. discriminate.
Qed.

Lemma read_null_terminated_write v rest :
  ~ In x00 v -> read_bytes_null_terminated (write_bytes_null_terminated v ++ rest) = (v, rest).
Proof.
  unfold write_bytes_null_terminated. induction v as [|b v IH]; intros H; [reflexivity|].
  cbn [app read_bytes_null_terminated]. destruct (byte_eqb b x00) eqn:E.
  - apply byte_eqb_eq in E. subst. exfalso. apply H. now left.
  - rewrite IH; [reflexivity|]. intros HI. apply H. now right.
Qed.

Lemma read_null_terminated_exact buf : forall v rest,
  read_bytes_null_terminated buf = (v, rest) ->
  ~ In x00 v /\ (buf = v ++ x00 :: rest \/ (buf = v /\ rest = [])).
Proof.
  induction buf as [|b buf IH]; intros v rest; cbn [read_bytes_null_terminated].
  - intros [= <- <-]. split; [intros []|]. now right.
  - destruct (byte_eqb b x00) eqn:E.
    + intros [= <- <-]. apply byte_eqb_eq in E. subst. split; [intros []|]. now left.
    + destruct (read_bytes_null_terminated buf) as [v' r']. intros [= <- <-].
      destruct (IH _ _ eq_refl) as [HN HB]. split.
      * intros [->|HI]; [|contradiction]. now rewrite byte_eqb_refl in E.
      * destruct HB as [->|[-> ->]]; [now left|now right].
Qed.

(** ** canonicity *)

Lemma write_mpi_prefix_free a b r1 r2 :
  mpi_range a -> mpi_range b -> write_mpi a ++ r1 = write_mpi b ++ r2 -> a = b /\ r1 = r2.
Proof.
  intros Ha Hb E. pose proof (read_mpi_write a r1 Ha) as H. rewrite E, (read_mpi_write b r2 Hb) in H.
  now injection H.
Qed.

Lemma write_public_key_inj a b r1 r2 :
  Forall mpi_range [dsa_p a; dsa_q a; dsa_g a; dsa_y a] ->
  Forall mpi_range [dsa_p b; dsa_q b; dsa_g b; dsa_y b] ->
  write_public_key a ++ r1 = write_public_key b ++ r2 -> a = b /\ r1 = r2.
Proof.
  intros Ha Hb E. unfold write_public_key in E. rewrite <- !app_assoc in E.
  apply app_inv_head in E.
  inversion Ha as [|? ? ? Ha1]; inversion Ha1 as [|? ? ? Ha2]; inversion Ha2 as [|? ? ? Ha3];
    inversion Ha3; subst.
  inversion Hb as [|? ? ? Hb1]; inversion Hb1 as [|? ? ? Hb2]; inversion Hb2 as [|? ? ? Hb3];
    inversion Hb3; subst.
  apply write_mpi_prefix_free in E; try assumption. destruct E as [E1 E].
  apply write_mpi_prefix_free in E; try assumption. destruct E as [E2 E].
  apply write_mpi_prefix_free in E; try assumption. destruct E as [E3 E].
  apply write_mpi_prefix_free in E; try assumption. destruct E as [E4 E].
  destruct a, b; cbn in *; subst. now split.
Qed.

(** ** keys, signatures, points and scalars *)

Section WithCrypto.
Context (C : Crypto).


Lemma read_public_key_write k rest :
  dsa_pub_ok C k -> read_public_key C (write_public_key k ++ rest) = Ok (k, rest).
Proof.
  intros (HR & HS & HC). unfold read_public_key, write_public_key. rewrite <- !app_assoc.
  inversion HR as [|? ? ? Ha1]; inversion Ha1 as [|? ? ? Ha2]; inversion Ha2 as [|? ? ? Ha3];
    inversion Ha3; subst.
  rewrite read_u16_write by lia. cbn [bind N.eqb negb].
  rewrite read_mpi_write by assumption. cbn [bind].
  rewrite read_mpi_write by assumption. cbn [bind].
  rewrite read_mpi_write by assumption. cbn [bind].
  rewrite read_mpi_write by assumption. cbn [bind].
  unfold dsa_from_components. rewrite HS. cbn [N.eqb Pos.eqb negb].
  destruct k as [p q g y]. cbn [dsa_p dsa_q dsa_g dsa_y]. rewrite HC. reflexivity.
Qed.

Lemma dsa_from_components_ok p q g y k :
  dsa_from_components C p q g y = Ok k ->
  k = mkDsaPub p q g y /\ N.size q = 160 /\ c_dsa_components_ok C k = true.
Proof.
  unfold dsa_from_components. destruct (N.eqb_spec (N.size q) 160); cbn [negb]; [|discriminate].
  destruct (c_dsa_components_ok C _) eqn:E; [|discriminate]. intros [= <-]. auto.
Qed.
Lemma dsa_from_components_safe p q g y : dsa_from_components C p q g y <> Panic.
Proof. unfold dsa_from_components. destruct (negb _); [discriminate|]. destruct (c_dsa_components_ok C _); discriminate. Qed.

Lemma read_public_key_safe : reader_safe (read_public_key C).
Proof.
  intros buf. apply bind_no_panic; [apply read_u16_safe|]. intros [? ?] _.
  destruct (negb _); [discriminate|].
  apply bind_no_panic; [apply read_mpi_safe|]. intros [? ?] _.
  apply bind_no_panic; [apply read_mpi_safe|]. intros [? ?] _.
  apply bind_no_panic; [apply read_mpi_safe|]. intros [? ?] _.
  apply bind_no_panic; [apply read_mpi_safe|]. intros [? ?] _.
  apply bind_no_panic; [apply dsa_from_components_safe|]. intros ? _. discriminate.
Qed.

Lemma read_mpi_prefix : reader_prefix read_mpi.
Proof.
  intros buf v rest H. apply read_mpi_ok in H. destruct H as (d & _ & -> & _).
  exists (write_u32 (N.of_nat (length d)) ++ d). now rewrite app_assoc.
Qed.

Lemma read_public_key_ok buf k rest :
  read_public_key C buf = Ok (k, rest) -> dsa_pub_ok C k /\ exists pre, buf = pre ++ rest.
Proof.
  unfold read_public_key. intros H. bind_inv H.
  destruct (negb _); [discriminate|]. do 4 bind_inv H. bind_inv H. injection H as <- <-.
  apply dsa_from_components_ok in E4. destruct E4 as (-> & HS & HC). split.
  - split; [|split; assumption]. cbn [dsa_p dsa_q dsa_g dsa_y].
    repeat constructor; eapply read_mpi_range; eassumption.
  - apply read_u16_exact in E. destruct E as [_ ->].
    apply read_mpi_prefix in E0, E1, E2, E3.
    destruct E0 as [p0 ->], E1 as [p1 ->], E2 as [p2 ->], E3 as [p3 ->].
    exists (write_u16 n ++ p0 ++ p1 ++ p2 ++ p3). now rewrite <- !app_assoc.
Qed.


Lemma read_dsa_signature_write s rest :
  dsa_sig_ok C s -> read_dsa_signature C (write_dsa_signature s ++ rest) = Ok (s, rest).
Proof.
  intros (H1 & H2 & H3). unfold read_dsa_signature, write_dsa_signature. rewrite <- app_assoc.
  rewrite read_fixed_write by apply be_bytes_length. cbn [bind].
  rewrite read_fixed_write by apply be_bytes_length. cbn [bind].
  rewrite !be_val_be_bytes_small by assumption.
  destruct s as [r s]. cbn [sig_r sig_s]. unfold dsa_sig_from. now rewrite H3.
Qed.
Lemma read_dsa_signature_exact buf s rest :
  read_dsa_signature C buf = Ok (s, rest) -> dsa_sig_ok C s /\ buf = write_dsa_signature s ++ rest.
Proof.
  unfold read_dsa_signature. intros H. do 2 bind_inv H. bind_inv H. injection H as <- <-.
  apply read_fixed_exact in E. destruct E as [-> L1].
  apply read_fixed_exact in E0. destruct E0 as [-> L2].
  unfold dsa_sig_from in E1. destruct (c_dsa_sig_ok C _) eqn:HC; [|discriminate].
  injection E1 as <-. cbn [sig_r sig_s] in *. split.
  - pose proof (be_val_bound l) as B1. pose proof (be_val_bound l1) as B2. rewrite L1 in B1. rewrite L2 in B2.
    repeat split; assumption.
  - unfold write_dsa_signature. cbn [sig_r sig_s].
    rewrite <- L1 at 1. rewrite be_bytes_be_val. rewrite <- L2 at 1. rewrite be_bytes_be_val.
    now rewrite <- app_assoc.
Qed.
Lemma read_dsa_signature_safe : reader_safe (read_dsa_signature C).
Proof.
  intros buf. apply bind_no_panic; [apply read_fixed_safe|]. intros [? ?] _.
  apply bind_no_panic; [apply read_fixed_safe|]. intros [? ?] _.
  apply bind_no_panic; [|intros ? _; discriminate]. unfold dsa_sig_from. destruct (c_dsa_sig_ok C _); discriminate.
Qed.

Lemma read_ed448_signature_write s rest :
  ed_sig_ok s -> read_ed448_signature (write_ed_sig s ++ rest) = Ok (s, rest).
Proof.
  intros [H1 H2]. unfold read_ed448_signature, write_ed_sig. rewrite <- app_assoc.
  rewrite read_fixed_write by assumption. cbn [bind].
  rewrite read_fixed_write by assumption. cbn [bind]. now destruct s.
Qed.
Lemma read_ed448_signature_exact buf s rest :
  read_ed448_signature buf = Ok (s, rest) -> ed_sig_ok s /\ buf = write_ed_sig s ++ rest.
Proof.
  unfold read_ed448_signature. intros H. do 2 bind_inv H. injection H as <- <-.
  apply read_fixed_exact in E. destruct E as [-> L1].
  apply read_fixed_exact in E0. destruct E0 as [-> L2].
  split; [now split|]. unfold write_ed_sig. cbn. now rewrite <- app_assoc.
Qed.
Lemma read_ed448_signature_safe : reader_safe read_ed448_signature.
Proof.
  intros buf. apply bind_no_panic; [apply read_fixed_safe|]. intros [? ?] _.
  apply bind_no_panic; [apply read_fixed_safe|]. intros [? ?] _. discriminate.
Qed.

Lemma pt_encode_length p : length (pt_encode p) = 57%nat.
Proof. unfold pt_encode. rewrite app_length, le_bytes_length. reflexivity. Qed.
Lemma read_ed448_point_write p rest :
  point_wire_ok C p -> read_ed448_point C (write_ed448_point p ++ rest) = Ok (p, rest).
Proof.
  intros H. unfold read_ed448_point, write_ed448_point.
  rewrite read_fixed_write by apply pt_encode_length. cbn [bind]. now rewrite H.
Qed.
Lemma read_ed448_point_safe : reader_safe (read_ed448_point C).
Proof.
  intros buf. apply bind_no_panic; [apply read_fixed_safe|]. intros [e ?] _.
  destruct (pt_decode C e); discriminate.
Qed.


Lemma decode_scalar_write s : scalar_range C s -> decode_scalar C (scalar_bytes s) = Ok s.
Proof.
  intros [[H1 H2] H3]. unfold decode_scalar, scalar_bytes.
  assert (HV : le_val (le_bytes 57 (Z.abs_N s)) = Z.abs_N s).
  { apply le_val_le_bytes_small. change (256 ^ N.of_nat 57) with (Z.to_N (2 ^ 456)).
    rewrite Zabs2N.abs_N_nonneg by lia. apply Z2N.inj_lt; lia. }
  destruct (all_zero _) eqn:E.
  - exfalso. assert (Z.abs_N s = 0).
    { rewrite <- HV. clear -E. revert E. generalize (le_bytes 57 (Z.abs_N s)). intros l.
      induction l as [|b l IH]; [reflexivity|]. cbn [all_zero forallb le_val].
      intros H. apply andb_true_iff in H. destruct H as [Hb Hl]. apply byte_eqb_eq in Hb. subst.
      rewrite IH by exact Hl. reflexivity. }
    lia.
  - rewrite HV. f_equal. rewrite N2Z.inj_abs_N, Z.abs_eq, Z.mod_small; lia.
Qed.
Lemma read_ed448_scalar_write s rest :
  scalar_range C s -> read_ed448_scalar C (write_ed448_scalar s ++ rest) = Ok (s, rest).
Proof.
  intros H. unfold read_ed448_scalar, write_ed448_scalar, scalar_bytes.
  rewrite read_fixed_write by apply le_bytes_length. cbn [bind].
  fold (scalar_bytes s). now rewrite decode_scalar_write.
Qed.

(* The scalar reader panics on exactly one kind of input: 57 zero bytes. *)
Lemma read_ed448_scalar_panic buf :
  read_ed448_scalar C buf = Panic <-> exists rest, buf = repeat x00 57 ++ rest.
Proof.
  unfold read_ed448_scalar. split.
  - unfold read_fixed, take_bytes. destruct (Nat.ltb_spec (length buf) 57); [discriminate|].
    cbn [bind]. unfold decode_scalar. destruct (all_zero (firstn 57 buf)) eqn:E; [|discriminate].
    intros _. exists (skipn 57 buf). rewrite <- (firstn_skipn 57 buf) at 1. f_equal.
    apply all_zero_iff in E.
    assert (HL : length (firstn 57 buf) = 57%nat) by (rewrite firstn_length; lia).
    revert E HL. generalize (firstn 57 buf) as l. intros l E HL. rewrite <- HL. clear HL.
    induction E; [reflexivity|]. cbn [length repeat]. subst. f_equal. assumption.
  - intros [rest ->]. rewrite read_fixed_write by reflexivity. reflexivity.
Qed.

Lemma read_ring_signature_write s rest :
  ring_range C s -> read_ring_signature C (write_ring_signature s ++ rest) = Ok (s, rest).
Proof.
  intros (H1 & H2 & H3 & H4 & H5 & H6). unfold read_ring_signature, write_ring_signature.
  rewrite <- !app_assoc.
  do 6 (rewrite read_ed448_scalar_write by assumption; cbn [bind]). now destruct s.
Qed.

End WithCrypto.
