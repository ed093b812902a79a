From Verif Require Import Base BaseLemmas Types Crypto CryptoProofs Encoding EncodingProofs Base64
  Base64Proofs ClientProfile ClientProfileProofs Messages SpecWire.
Local Open Scope N_scope.

(** * Encoded messages *)


Lemma flags_round_trip b : flags_from_byte (flags_byte b) = Some b.
Proof. destruct b; reflexivity. Qed.
Lemma flags_from_byte_ok x b : flags_from_byte x = Some b -> x = flags_byte b.
Proof.
  unfold flags_from_byte. destruct (byte_eqb x x00) eqn:E1; [apply byte_eqb_eq in E1; now intros [= <-]|].
  destruct (byte_eqb x x01) eqn:E2; [apply byte_eqb_eq in E2; now intros [= <-]|discriminate].
Qed.
Lemma read_flags_write b rest : read_flags (write_u8 (flags_byte b) ++ rest) = Ok (b, rest).
Proof. unfold read_flags. rewrite read_u8_write. cbn [bind]. now rewrite flags_round_trip. Qed.
Lemma read_keyid_write k rest : keyid_range k -> read_keyid (write_u32 k ++ rest) = Ok (k, rest).
Proof.
  intros [H1 H2]. unfold read_keyid. rewrite read_u32_write by assumption. cbn [bind].
  destruct (N.eqb_spec k 0); [lia|reflexivity].
Qed.
Lemma read_keyid_exact buf k rest :
  read_keyid buf = Ok (k, rest) -> keyid_range k /\ buf = write_u32 k ++ rest.
Proof.
  unfold read_keyid. intros H. bind_inv H. destruct (N.eqb_spec n 0); [discriminate|].
  injection H as <- <-. apply read_u32_exact in E as [? ?]. unfold keyid_range. split; [lia|assumption].
Qed.

Section WithCrypto.
Context (C : Crypto).


Lemma mpi_range_0 : mpi_range 0.
Proof. unfold mpi_range. rewrite byte_len_0. lia. Qed.

Ltac rd := rewrite <- ?app_assoc; cbn [bind].
Ltac eqbs :=
  repeat match goal with |- context [byte_eqb ?a ?b] =>
    let r := eval vm_compute in (byte_eqb a b) in change (byte_eqb a b) with r end; cbn iota.

Lemma read_content_write v m rest :
  content_ok C v m ->
  exists t c, type_code m = Ok t /\ write_content m = Ok c
    /\ read_content C v t (c ++ rest) = Ok (m, rest).
Proof.
  intros H. destruct v; try contradiction; destruct m; try contradiction; cbn [content_ok] in H;
    cbn [type_code write_content].
  - destruct H as (H1 & H2). eexists _, _; split; [reflexivity|]; split; [reflexivity|]. cbn [read_content].
    eqbs.
    unfold read_dh_commit, write_dh_commit, map_fst. rd.
    rewrite read_data_write by assumption. rd. rewrite read_data_write by assumption. rd.
    now destruct m.
  - eexists _, _; split; [reflexivity|]; split; [reflexivity|]. cbn [read_content].
    eqbs.
    unfold read_dh_key, write_dh_key, map_fst. rd. rewrite read_mpi_write by assumption. rd. now destruct m.
  - destruct H as (H1 & H2 & H3). eexists _, _; split; [reflexivity|]; split; [reflexivity|]. cbn [read_content].
    eqbs.
    unfold read_reveal_sig, write_reveal_sig, map_fst. rd.
    rewrite read_data_write by (rewrite H1; lia). rd. rewrite H1. cbn [Nat.eqb negb].
    rewrite read_data_write by assumption. rd.
    unfold read_mac. rewrite read_fixed_write by assumption. rd. now destruct m.
  - destruct H as (H1 & H2). eexists _, _; split; [reflexivity|]; split; [reflexivity|]. cbn [read_content].
    eqbs.
    unfold read_sig_msg, write_sig_msg, map_fst. rd.
    rewrite read_data_write by assumption. rd.
    unfold read_mac. rewrite read_fixed_write by assumption. rd. now destruct m.
  - destruct H as (H1 & H2 & H3 & H4 & H5 & H6 & H7).
    eexists _, _; split; [reflexivity|]; split; [reflexivity|]. cbn [read_content].
    eqbs.
    unfold read_data3, write_data3, map_fst. rd.
    rewrite read_flags_write. rd. rewrite read_keyid_write by assumption. rd.
    rewrite read_keyid_write by assumption. rd. rewrite read_mpi_write by assumption. rd.
    unfold read_ctr. rewrite read_fixed_write by assumption. rd.
    rewrite read_data_write by assumption. rd.
    unfold read_mac. rewrite read_fixed_write by assumption. rd.
    rewrite read_data_write by assumption. rd. now destruct m.
  - destruct H as (H1 & H2 & H3 & H4 & H5).
    eexists _, _; split; [reflexivity|]; split; [reflexivity|]. cbn [read_content].
    eqbs.
    unfold read_identity, write_identity, map_fst. rd.
    rewrite read_payload_write by assumption. rd. rewrite read_ed448_point_write by assumption. rd.
    rewrite read_mpi_write by assumption. rd. rewrite read_ed448_point_write by assumption. rd.
    rewrite read_mpi_write by assumption. rd. now destruct m.
  - destruct H as (H1 & H2 & H3 & H4 & H5 & H6).
    eexists _, _; split; [reflexivity|]; split; [reflexivity|]. cbn [read_content].
    eqbs.
    unfold read_authr, write_authr, map_fst. rd.
    rewrite read_payload_write by assumption. rd. rewrite read_ed448_point_write by assumption. rd.
    rewrite read_mpi_write by assumption. rd. rewrite read_ring_signature_write by assumption. rd.
    rewrite read_ed448_point_write by assumption. rd. rewrite read_mpi_write by assumption. rd. now destruct m.
  - eexists _, _; split; [reflexivity|]; split; [reflexivity|]. cbn [read_content].
    eqbs.
    unfold read_authi, write_authi, map_fst. rd.
    rewrite read_ring_signature_write by assumption. rd. now destruct m.
  - destruct H as (H1 & H2 & H3 & H4 & H5 & H6 & H7 & H8 & H9).
    rewrite H9. cbn [Nat.eqb].
    eexists _, _; split; [reflexivity|]; split; [reflexivity|]. cbn [read_content].
    eqbs.
    unfold read_data4, write_data4, map_fst. rd.
    rewrite read_flags_write. rd. rewrite !read_u32_write by assumption. rd.
    rewrite !read_u32_write by assumption. rd. rewrite !read_u32_write by assumption. rd.
    rewrite read_ed448_point_write by assumption. rd.
    rewrite read_mpi_write by (destruct (d4_dh m); [apply H5|apply mpi_range_0]). rd.
    rewrite read_data_write by assumption. rd.
    unfold read_mac4. rewrite read_fixed_write by assumption. rd.
    rewrite read_data_write by assumption. rd.
    destruct m as [fl pn i j e [d|] enc mac rv]; cbn in *; [|reflexivity].
    destruct (N.eqb_spec d 0); [tauto|reflexivity].
Qed.

Lemma write_encoded_message_ok m rest :
  wire_ok C m -> exists b, write_encoded_message m = Ok b /\ read_encoded_message C (b ++ rest) = Ok (m, rest).
Proof.
  intros (H1 & H2 & H3). destruct m as [v s r c]. cbn [em_version em_sender em_receiver em_message] in *.
  unfold write_encoded_message, read_encoded_message. cbn [em_version em_sender em_receiver em_message].
  destruct (read_content_write v c rest H3) as (t & b & E1 & E2 & E3). rewrite E1, E2.
  assert (exists n, encode_version v = Ok n /\ n < 65536 /\ version_of_u16 n = Ok v) as (n & N1 & N2 & N3).
  { destruct v; try contradiction; eexists; (split; [reflexivity|split; [lia|reflexivity]]). }
  rewrite N1. cbn [bind]. eexists. split; [reflexivity|]. rd.
  rewrite read_u16_write by assumption. rd. rewrite N3. rd. rewrite read_u8_write. rd.
  rewrite read_instance_tag_write by assumption. rd.
  rewrite read_instance_tag_write by assumption. rd. rewrite E3. reflexivity.
Qed.

Lemma parse_encoded_body body :
  parse C (OTR_ENCODED_PREFIX ++ body ++ OTR_ENCODED_SUFFIX) = parse_encoded_message C body.
Proof.
  unfold parse. rewrite starts_with_app. rewrite app_assoc, ends_with_app. cbn [andb].
  rewrite <- app_assoc. f_equal. rewrite !app_length.
  change (length OTR_ENCODED_PREFIX) with 5%nat. change (length OTR_ENCODED_SUFFIX) with 1%nat.
  change (skipn 5 (OTR_ENCODED_PREFIX ++ body ++ OTR_ENCODED_SUFFIX)) with (body ++ OTR_ENCODED_SUFFIX).
  replace (5 + (length body + 1) - 6)%nat with (length body + 0)%nat by lia.
  rewrite firstn_app_2. cbn. apply app_nil_r.
Qed.

Lemma encoded_round_trip m :
  wire_ok C m -> exists s, serialize_message (MsgEncoded m) = Ok s /\ parse C s = Ok (MsgEncoded m).
Proof.
  intros H. destruct (write_encoded_message_ok m [] H) as (b & E1 & E2). rewrite app_nil_r in E2.
  cbn [serialize_message]. rewrite E1. cbn [bind]. eexists. split; [reflexivity|].
  rewrite parse_encoded_body. unfold parse_encoded_message. rewrite b64_round_trip, E2. reflexivity.
Qed.

(** ** What is accepted is well formed *)

Lemma read_ed448_scalar_ok buf s rest :
  (0 < c_ed_q C <= 2 ^ 456)%Z -> read_ed448_scalar C buf = Ok (s, rest) -> s <> 0%Z -> scalar_range C s.
Proof.
  unfold read_ed448_scalar, decode_scalar. intros Q H Hs. bind_inv H. bind_inv H. injection H as <- <-.
  destruct (all_zero _) in E0; [discriminate|]. injection E0 as <-.
  pose proof (Z.mod_pos_bound (Z.of_N (le_val l)) (c_ed_q C)). unfold scalar_range. lia.
Qed.


Lemma read_ring_signature_ok buf s rest :
  (0 < c_ed_q C <= 2 ^ 456)%Z -> read_ring_signature C buf = Ok (s, rest) -> ring_nonzero s -> ring_range C s.
Proof.
  unfold read_ring_signature. intros Q H N. repeat bind_inv H. injection H as <- <-.
  destruct N as (N1 & N2 & N3 & N4 & N5 & N6). cbn in *. unfold ring_range. cbn.
  repeat split; eapply read_ed448_scalar_ok; eassumption.
Qed.


Lemma map_fst_ok {A B} (f : A -> B) r b rest :
  map_fst f r = Ok (b, rest) -> exists a, r = Ok (a, rest) /\ b = f a.
Proof. unfold map_fst. intros H. bind_inv H. injection H as <- <-. eauto. Qed.

Lemma read_flags_exact buf b rest :
  read_flags buf = Ok (b, rest) -> buf = write_u8 (flags_byte b) ++ rest.
Proof.
  unfold read_flags. intros H. bind_inv H.
  match type of H with match flags_from_byte ?x with _ => _ end = _ =>
    destruct (flags_from_byte x) eqn:E1; [|discriminate] end.
  injection H as <- <-. apply flags_from_byte_ok in E1. subst. now apply read_u8_exact in E.
Qed.

Lemma read_content_ok v t buf m rest :
  decode_stable C -> (0 < c_ed_q C <= 2 ^ 456)%Z ->
  read_content C v t buf = Ok (m, rest) -> rewritable m -> content_ok C v m.
Proof.
  intros D Q H R. unfold read_content in H.
  destruct v; try discriminate;
    repeat match type of H with
    | (if ?c then _ else _) = _ => destruct c
    end; try discriminate; apply map_fst_ok in H as (a & H & ->); cbn [rewritable content_ok] in *.
  - unfold read_dh_commit in H. repeat bind_inv H. injection H as <- <-.
    apply read_data_exact in E, E0. split; [apply E|apply E0].
  - unfold read_dh_key in H. repeat bind_inv H. injection H as <- <-. eapply read_mpi_range; eassumption.
  - unfold read_reveal_sig in H. bind_inv H. destruct (Nat.eqb_spec (length l) 16); [|discriminate].
    cbn [negb] in H. repeat bind_inv H. injection H as <- <-. cbn.
    apply read_data_exact in E0. apply read_fixed_exact in E1. intuition.
  - unfold read_sig_msg in H. repeat bind_inv H. injection H as <- <-. cbn.
    apply read_data_exact in E. apply read_fixed_exact in E0. intuition.
  - unfold read_data3 in H. repeat bind_inv H. injection H as <- <-. cbn.
    apply read_keyid_exact in E0, E1. apply read_mpi_range in E2. apply read_fixed_exact in E3, E5.
    apply read_data_exact in E4, E6. unfold fits32. intuition.
  - unfold read_identity in H. repeat bind_inv H. injection H as <- <-. cbn.
    apply read_payload_wire_ok in E; [|assumption].
    apply read_ed448_point_ok in E0, E2; try assumption.
    apply read_mpi_range in E1, E3. auto.
  - unfold read_authr in H. repeat bind_inv H. injection H as <- <-. cbn in *.
    apply read_payload_wire_ok in E; [|assumption].
    apply read_ed448_point_ok in E0, E3; try assumption.
    apply read_mpi_range in E1, E4. apply read_ring_signature_ok in E2; auto.
    exact (conj E (conj E0 (conj E1 (conj E2 (conj E3 E4))))).
  - unfold read_authi in H. repeat bind_inv H. injection H as <- <-. cbn in *.
    apply read_ring_signature_ok in E; auto.
  - unfold read_data4 in H. repeat bind_inv H. injection H as <- <-. cbn in *.
    apply read_u32_exact in E0, E1, E2. apply read_ed448_point_ok in E3; [|assumption].
    apply read_mpi_range in E4. apply read_data_exact in E5, E7. apply read_fixed_exact in E6.
    unfold fits32. intuition.
    match goal with |- context [if ?c then None else _] => destruct c eqn:Z end; [exact I|].
    apply N.eqb_neq in Z. auto.
Qed.

Lemma read_encoded_message_ok buf m rest :
  decode_stable C -> (0 < c_ed_q C <= 2 ^ 456)%Z ->
  read_encoded_message C buf = Ok (m, rest) -> rewritable (em_message m) -> wire_ok C m.
Proof.
  intros D Q H R. unfold read_encoded_message in H. repeat bind_inv H. injection H as <- <-.
  apply read_instance_tag_exact in E2, E3. cbn in R. apply read_content_ok in E4; try assumption.
  split; [apply E2|split; [apply E3|exact E4]].
Qed.

Lemma parse_reserialize data m :
  decode_stable C -> (0 < c_ed_q C <= 2 ^ 456)%Z ->
  parse C data = Ok (MsgEncoded m) -> rewritable (em_message m) ->
  exists s, serialize_message (MsgEncoded m) = Ok s /\ parse C s = Ok (MsgEncoded m).
Proof.
  intros D Q H R. apply encoded_round_trip. unfold parse in H.
  destruct (_ && _).
  - unfold parse_encoded_message in H. destruct (b64_decode _); [|discriminate].
    bind_inv H. injection H as <-. eapply read_encoded_message_ok; eassumption.
  - exfalso. unfold parse_plain_message in H.
    destruct (starts_with _ _); [discriminate|]. destruct (find_query data) as [[g|]|]; try discriminate.
    destruct (find_tag data) as [[[? gs] ?]|]; [|discriminate]. destruct (rev gs); discriminate.
Qed.

(** ** Crashes of the binary reader: only the all-zero scalar in a ring signature *)

Lemma read_ring_signature_panic buf :
  read_ring_signature C buf = Panic -> exists pre rest, buf = pre ++ repeat x00 57 ++ rest
    /\ exists k, length pre = (57 * k)%nat /\ (k < 6)%nat.
Proof.
  assert (SC : forall b s r, read_ed448_scalar C b = Ok (s, r) -> exists e, length e = 57%nat /\ b = e ++ r).
  { intros b s r H. unfold read_ed448_scalar in H. repeat bind_inv H. injection H as <- <-.
    apply read_fixed_exact in E as [-> L]. eauto. }
  unfold read_ring_signature. intros H.
  destruct (read_ed448_scalar C buf) as [[s1 b1]|e|] eqn:E1; cbn [bind] in H; [|discriminate|].
  2: { apply read_ed448_scalar_panic in E1 as (r & ->). exists [], r. split; [reflexivity|]. exists 0%nat. cbn. lia. }
  apply SC in E1 as (e1 & L1 & ->).
  destruct (read_ed448_scalar C b1) as [[s2 b2]|e|] eqn:E2; cbn [bind] in H; [|discriminate|].
  2: { apply read_ed448_scalar_panic in E2 as (r & ->). exists e1, r. split; [reflexivity|]. exists 1%nat. lia. }
  apply SC in E2 as (e2 & L2 & ->).
  destruct (read_ed448_scalar C b2) as [[s3 b3]|e|] eqn:E3; cbn [bind] in H; [|discriminate|].
  2: { apply read_ed448_scalar_panic in E3 as (r & ->). exists (e1 ++ e2), r.
       split; [now rewrite <- ?app_assoc|]. exists 2%nat. rewrite !app_length. lia. }
  apply SC in E3 as (e3 & L3 & ->).
  destruct (read_ed448_scalar C b3) as [[s4 b4]|e|] eqn:E4; cbn [bind] in H; [|discriminate|].
  2: { apply read_ed448_scalar_panic in E4 as (r & ->). exists (e1 ++ e2 ++ e3), r.
       split; [now rewrite <- ?app_assoc|]. exists 3%nat. rewrite !app_length. lia. }
  apply SC in E4 as (e4 & L4 & ->).
  destruct (read_ed448_scalar C b4) as [[s5 b5]|e|] eqn:E5; cbn [bind] in H; [|discriminate|].
  2: { apply read_ed448_scalar_panic in E5 as (r & ->). exists (e1 ++ e2 ++ e3 ++ e4), r.
       split; [now rewrite <- ?app_assoc|]. exists 4%nat. rewrite !app_length. lia. }
  apply SC in E5 as (e5 & L5 & ->).
  destruct (read_ed448_scalar C b5) as [[s6 b6]|e|] eqn:E6; cbn [bind] in H; [discriminate|discriminate|].
  apply read_ed448_scalar_panic in E6 as (r & ->). exists (e1 ++ e2 ++ e3 ++ e4 ++ e5), r.
  split; [now rewrite <- ?app_assoc|]. exists 5%nat. rewrite !app_length. lia.
Qed.

Ltac step_safe :=
  match goal with
  | |- map_fst _ _ <> Panic => unfold map_fst
  | |- bind _ _ <> Panic => apply bind_no_panic
  | |- Ok _ <> Panic => discriminate
  | |- Err _ <> Panic => discriminate
  | |- (if ?c then _ else _) <> Panic => destruct c
  | |- forall _, _ => let a := fresh in let E := fresh in intros a E; try destruct a as [? ?]
  end.

Lemma read_flags_safe : reader_safe read_flags.
Proof.
  intros buf. unfold read_flags. apply bind_no_panic; [apply read_u8_safe|]. intros [b r] _.
  destruct (flags_from_byte b); discriminate.
Qed.
Lemma read_keyid_safe : reader_safe read_keyid.
Proof.
  intros buf. unfold read_keyid. apply bind_no_panic; [apply read_u32_safe|]. intros [b r] _.
  destruct (b =? 0); discriminate.
Qed.

Ltac safe_leaf :=
  first [ apply read_data_safe | apply read_mpi_safe | apply read_fixed_safe | apply read_flags_safe
        | apply read_keyid_safe | apply read_payload_safe | apply read_ed448_point_safe
        | apply read_u32_safe ].

Lemma read_content_safe v t buf :
  (v = V4 /\ (t = OTR_AUTHR_TYPE_CODE \/ t = OTR_AUTHI_TYPE_CODE)) \/ read_content C v t buf <> Panic.
Proof.
  unfold read_content. destruct v; try (right; discriminate).
  - right. repeat step_safe;
    unfold read_dh_commit, read_dh_key, read_reveal_sig, read_sig_msg, read_data3, read_ctr, read_mac;
    repeat step_safe; safe_leaf.
  - destruct (byte_eqb t OTR_IDENTITY_TYPE_CODE).
    { right. unfold read_identity; repeat step_safe; safe_leaf. }
    destruct (byte_eqb t OTR_AUTHR_TYPE_CODE) eqn:E1; [apply byte_eqb_eq in E1; auto|].
    destruct (byte_eqb t OTR_AUTHI_TYPE_CODE) eqn:E2; [apply byte_eqb_eq in E2; auto|].
    right. unfold read_data4, read_mac4. repeat step_safe; safe_leaf.
Qed.

Lemma version_of_u16_safe v : version_of_u16 v <> Panic.
Proof. unfold version_of_u16. repeat step_safe. Qed.

Lemma ring_reader_panic_zero A B (f : ring_sig * bytes -> res (A * B)) buf :
  (forall a, f a <> Panic) ->
  bind (read_ring_signature C buf) f = Panic -> exists pre rest, buf = pre ++ repeat x00 57 ++ rest.
Proof.
  intros HF H. destruct (read_ring_signature C buf) eqn:E; cbn [bind] in H; [|discriminate|].
  - exfalso. eapply HF, H.
  - apply read_ring_signature_panic in E as (p & r & -> & _). eauto.
Qed.

Lemma read_prefix_app {A} (r : reader A) buf v rest :
  reader_prefix r -> r buf = Ok (v, rest) -> exists pre, buf = pre ++ rest.
Proof. intros P. apply P. Qed.

Lemma read_ed448_point_prefix : reader_prefix (read_ed448_point C).
Proof.
  intros buf v rest H. unfold read_ed448_point in H. bind_inv H.
  destruct (pt_decode C _); [|discriminate]. injection H as <- <-.
  apply read_fixed_exact in E as [-> _]. eauto.
Qed.
Lemma read_field_prefix : reader_prefix (read_field C).
Proof.
  intros buf f rest H. unfold read_field in H. bind_inv H. apply read_u16_exact in E as [_ ->].
  assert (exists pre, l = pre ++ rest) as (pre & ->); [|exists (write_u16 n ++ pre); now rewrite app_assoc].
  destruct (n =? 1); [|destruct (n =? 2); [|destruct (n =? 3); [|destruct (n =? 4);
    [|destruct (n =? 5); [|destruct (n =? 6); [|destruct (n =? 7); [|discriminate]]]]]]].
  - bind_inv H. injection H as <- <-. apply read_instance_tag_exact in E as [? ->]. eauto.
  - bind_inv H. destruct (negb _); [discriminate|]. bind_inv H. injection H as <- <-.
    apply read_u16_le_exact in E as [_ ->]. apply read_ed448_point_prefix in E0 as (p' & ->).
    eexists. now rewrite app_assoc.
  - bind_inv H. destruct (negb _); [discriminate|]. bind_inv H. injection H as <- <-.
    apply read_u16_le_exact in E as [_ ->]. apply read_ed448_point_prefix in E0 as (p' & ->).
    eexists. now rewrite app_assoc.
  - bind_inv H. injection H as <- <-. apply read_data_exact in E as [? ->]. eauto.
  - bind_inv H. injection H as <- <-. apply read_i64_exact in E as [? ->]. eauto.
  - bind_inv H. injection H as <- <-. apply read_public_key_ok in E as [? (pre & ->)]. eauto.
  - bind_inv H. injection H as <- <-. apply read_dsa_signature_exact in E as [? ->]. eauto.
Qed.
Lemma read_fields_prefix fuel : forall count buf fs rest,
  read_fields C fuel count buf = Ok (fs, rest) -> exists pre, buf = pre ++ rest.
Proof.
  induction fuel as [|fuel IH]; intros count buf fs rest H; cbn [read_fields] in H;
    destruct (count =? 0); try discriminate.
  - injection H as <- <-. now exists [].
  - injection H as <- <-. now exists [].
  - bind_inv H. bind_inv H. injection H as <- <-. apply IH in E0 as (p1 & ->).
    apply read_field_prefix in E as (p2 & ->). exists (p2 ++ p1). now rewrite app_assoc.
Qed.
Lemma read_payload_prefix : reader_prefix (read_payload C).
Proof.
  intros buf p rest H. unfold read_payload in H. repeat bind_inv H. injection H as <- <-.
  apply read_u32_exact in E as [_ ->]. apply read_fields_prefix in E0 as (pre & ->).
  apply read_ed448_signature_exact in E1 as [_ ->]. eexists. now rewrite !app_assoc.
Qed.

Lemma read_content_panic v t buf :
  read_content C v t buf = Panic ->
  v = V4 /\ (t = OTR_AUTHR_TYPE_CODE \/ t = OTR_AUTHI_TYPE_CODE)
  /\ exists pre rest, buf = pre ++ repeat x00 57 ++ rest.
Proof.
  intros H. destruct (read_content_safe v t buf) as [[-> Ht]|]; [|contradiction].
  split; [reflexivity|]. split; [assumption|]. cbn [read_content] in H.
  destruct Ht as [-> | ->];
    repeat match type of H with context [byte_eqb ?a ?b] =>
      let r := eval vm_compute in (byte_eqb a b) in change (byte_eqb a b) with r in H end; cbn iota in H.
  - unfold read_authr, map_fst in H.
    destruct (read_payload C buf) as [[p b1]|e|] eqn:E1; cbn [bind] in H; [|discriminate|destruct (read_payload_safe _ _ E1)].
    apply read_payload_prefix in E1 as (p1 & ->).
    destruct (read_ed448_point C b1) as [[x b2]|e|] eqn:E2; cbn [bind] in H; [|discriminate|destruct (read_ed448_point_safe _ _ E2)].
    apply read_ed448_point_prefix in E2 as (p2 & ->).
    destruct (read_mpi b2) as [[a b3]|e|] eqn:E3; cbn [bind] in H; [|discriminate|destruct (read_mpi_safe _ E3)].
    apply read_mpi_prefix in E3 as (p3 & ->).
    destruct (read_ring_signature C b3) as [[sg b4]|e|] eqn:E4; cbn [bind] in H; [exfalso|discriminate|].
    + revert H. match goal with |- ?x = Panic -> False => change (x <> Panic) end. repeat step_safe; safe_leaf.
    + apply read_ring_signature_panic in E4 as (p4 & r & -> & _).
      exists (p1 ++ p2 ++ p3 ++ p4), r. now rewrite <- !app_assoc.
  - unfold read_authi, map_fst in H.
    destruct (read_ring_signature C buf) as [[sg b4]|e|] eqn:E4; cbn [bind] in H; try discriminate.
    apply read_ring_signature_panic in E4 as (p4 & r & -> & _). eauto.
Qed.

Lemma read_encoded_message_panic buf :
  read_encoded_message C buf = Panic ->
  exists t tags pre rest, (t = OTR_AUTHR_TYPE_CODE \/ t = OTR_AUTHI_TYPE_CODE) /\ length tags = 8%nat
    /\ buf = [x00; x04; t] ++ tags ++ pre ++ repeat x00 57 ++ rest.
Proof.
  unfold read_encoded_message. intros H.
  destruct (read_u16 buf) as [[v b1]|e|] eqn:E1; cbn [bind] in H; [|discriminate|destruct (read_u16_safe _ E1)].
  apply read_u16_exact in E1 as [_ ->].
  destruct (version_of_u16 v) as [v'|e|] eqn:EV; cbn [bind] in H; [|discriminate|destruct (version_of_u16_safe _ EV)].
  destruct (read_u8 b1) as [[t b2]|e|] eqn:E2; cbn [bind] in H; [|discriminate|destruct (read_u8_safe _ E2)].
  apply read_u8_exact in E2 as ->.
  destruct (read_instance_tag b2) as [[s b3]|e|] eqn:E3; cbn [bind] in H; [|discriminate|destruct (read_instance_tag_safe _ E3)].
  apply read_instance_tag_exact in E3 as [_ ->].
  destruct (read_instance_tag b3) as [[r b4]|e|] eqn:E4; cbn [bind] in H; [|discriminate|destruct (read_instance_tag_safe _ E4)].
  apply read_instance_tag_exact in E4 as [_ ->].
  destruct (read_content C v' t b4) as [[m b5]|e|] eqn:E5; cbn [bind] in H; try discriminate.
  apply read_content_panic in E5 as (-> & Ht & pre & rest & ->).
  assert (v = 4).
  { unfold version_of_u16 in EV. destruct (v =? 0); [discriminate|]. destruct (v =? 3); [discriminate|].
    destruct (N.eqb_spec v 4); [assumption|discriminate]. }
  subst v. exists t, (write_u32 s ++ write_u32 r), pre, rest. split; [assumption|].
  split; [reflexivity|]. rewrite <- !app_assoc. reflexivity.
Qed.

End WithCrypto.

(** * Human readable messages *)


Lemma is_digit_iff b : is_digit b = true <-> digit_char b.
Proof. unfold is_digit, digit_char. rewrite andb_true_iff, !N.leb_le. reflexivity. Qed.
Lemma is_blank_iff b : is_blank b = true <-> blank_char b.
Proof. unfold is_blank, blank_char. rewrite orb_true_iff, !byte_eqb_eq. reflexivity. Qed.

Lemma span_digits_spec l : forall d r, span_digits l = (d, r) ->
  l = d ++ r /\ Forall digit_char d /\ match r with b :: _ => is_digit b = false | [] => True end.
Proof.
  induction l as [|b l IH]; intros d r H; cbn [span_digits] in H.
  - injection H as <- <-. repeat split; constructor.
  - destruct (is_digit b) eqn:E.
    + apply is_digit_iff in E. destruct (span_digits l) as [d' r'] eqn:E1. injection H as <- <-.
      destruct (IH _ _ eq_refl) as (-> & H1 & H2). repeat split; auto.
    + injection H as <- <-. repeat split; auto.
Qed.
Lemma span_digits_app d r :
  Forall digit_char d -> match r with b :: _ => is_digit b = false | [] => True end ->
  span_digits (d ++ r) = (d, r).
Proof.
  induction 1 as [|b d Hb _ IH]; intros Hr.
  - destruct r as [|b r]; cbn; [reflexivity|]. now rewrite Hr.
  - cbn [app span_digits]. apply is_digit_iff in Hb. rewrite Hb, IH by assumption. reflexivity.
Qed.

Lemma starts_qmark_iff l : starts_qmark l = true <-> exists r, l = x3f :: r.
Proof.
  destruct l as [|b l]; cbn; [split; [discriminate|intros (? & ?); discriminate]|].
  rewrite byte_eqb_eq. unfold QMARK. split; [intros ->; eauto|intros (r & E); now injection E].
Qed.

Lemma match_versions_ok l g :
  match_versions l = Some g <-> version_group g /\ exists r, l = g ++ x3f :: r.
Proof.
  unfold match_versions. split.
  - set (cl := match l with b :: r => if byte_eqb b x3a then ([x3a], r) else ([], l) | [] => ([], []) end).
    assert (HC : exists colon l1, cl = (colon, l1) /\ l = colon ++ l1 /\ (colon = [] \/ colon = [x3a])).
    { unfold cl. destruct l as [|b r]; [exists [], []; auto|].
      destruct (byte_eqb b x3a) eqn:E; [apply byte_eqb_eq in E; subst b; exists [x3a], r; auto|].
      exists [], (b :: r). auto. }
    destruct HC as (colon & l1 & -> & -> & Hc). destruct l1 as [|v r]; [discriminate|].
    destruct (byte_eqb v x76) eqn:Ev; [|discriminate]. apply byte_eqb_eq in Ev. subst v.
    destruct (span_digits r) as [d r'] eqn:Ed. destruct (starts_qmark r') eqn:Eq; [|discriminate].
    intros H. injection H as <-. apply span_digits_spec in Ed as (-> & Hd & _).
    apply starts_qmark_iff in Eq as (r & ->).
    split; [exists colon, d; auto|]. exists r. now rewrite <- app_assoc.
  - intros ((colon & d & Hc & Hd & ->) & r & ->).
    assert (HS : span_digits (d ++ x3f :: r) = (d, x3f :: r)) by (apply span_digits_app; auto; reflexivity).
    destruct Hc as [-> | ->]; cbn [app].
    + change (byte_eqb x76 x3a) with false. cbn iota. change (byte_eqb x76 x76) with true. cbn iota.
      rewrite HS. reflexivity.
    + change (byte_eqb x3a x3a) with true. cbn iota. change (byte_eqb x76 x76) with true. cbn iota.
      rewrite HS. reflexivity.
Qed.

Definition tail_at (l : bytes) (g : option bytes) : Prop :=
  match g with Some g => version_group g | None => True end
  /\ exists rest, l = match g with Some g => g | None => [] end ++ x3f :: rest.

Lemma match_group_ok l g : match_group_qmark l = Some g -> tail_at l g.
Proof.
  unfold match_group_qmark, tail_at. destruct (match_versions l) as [v|] eqn:E.
  - intros H. injection H as <-. now apply match_versions_ok.
  - destruct (starts_qmark l) eqn:Eq; [|discriminate]. intros H. injection H as <-.
    split; [exact I|]. now apply starts_qmark_iff.
Qed.
Lemma match_group_complete l g :
  tail_at l g -> match_group_qmark l = Some g \/ (g = None /\ exists v, match_group_qmark l = Some (Some v)).
Proof.
  unfold match_group_qmark, tail_at. intros [H (r & E)]. destruct g as [g|].
  - assert (match_versions l = Some g) as -> by (apply match_versions_ok; eauto). auto.
  - destruct (match_versions l) as [v|] eqn:Ev; [right; eauto|].
    assert (starts_qmark l = true) as -> by (apply starts_qmark_iff; eauto). auto.
Qed.
(* a group never starts with a question mark *)
Lemma group_no_qmark g r : version_group g -> starts_qmark (g ++ r) = false.
Proof. intros (c & d & [-> | ->] & _ & ->); reflexivity. Qed.

Lemma match_query_ok l g : match_query l = Some g -> query_at l g.
Proof.
  unfold match_query, query_at. destruct (starts_with _ l) eqn:E; [|discriminate].
  apply starts_with_iff in E as (r & ->).
  change (skipn 4 ([x3f; x4f; x54; x52] ++ r)) with r.
  destruct (starts_qmark r) eqn:Eq.
  - apply starts_qmark_iff in Eq as (r' & ->). cbn [skipn].
    destruct (match_group_qmark r') as [g'|] eqn:E1.
    + intros H. injection H as <-. apply match_group_ok in E1 as (H1 & rest & ->).
      exists [x3f], rest. auto.
    + intros H. apply match_group_ok in H as (H1 & rest & ->). exists [], rest. auto.
  - intros H. apply match_group_ok in H as (H1 & rest & ->). exists [], rest. auto.
Qed.

(* If a version group is available at this position, the match captures one. *)
Lemma match_query_group l g :
  query_at l (Some g) -> exists g', match_query l = Some (Some g').
Proof.
  intros (q & rest & Hq & HG & ->). unfold match_query. rewrite starts_with_app.
  set (t := q ++ g ++ x3f :: rest).
  change (skipn 4 ([x3f; x4f; x54; x52] ++ t)) with t. subst t.
  assert (HM : match_group_qmark (g ++ x3f :: rest) = Some (Some g)).
  { unfold match_group_qmark.
    assert (match_versions (g ++ x3f :: rest) = Some g) as -> by (apply match_versions_ok; eauto). reflexivity. }
  destruct Hq as [-> | ->]; cbn [app].
  - rewrite (group_no_qmark g _ HG). rewrite HM. eauto.
  - change (starts_qmark (x3f :: g ++ x3f :: rest)) with true. cbn [skipn]. rewrite HM. eauto.
Qed.

Lemma match_query_complete l g : query_at l g -> match_query l <> None.
Proof.
  intros (q & rest & Hq & HG & ->). unfold match_query. rewrite starts_with_app.
  set (gt := match g with Some g => g | None => [] end).
  set (t := q ++ gt ++ x3f :: rest).
  change (skipn 4 ([x3f; x4f; x54; x52] ++ t)) with t. subst t.
  assert (T : tail_at (gt ++ x3f :: rest) g) by (split; [assumption|eauto]).
  apply match_group_complete in T.
  assert (T' : match_group_qmark (gt ++ x3f :: rest) <> None)
    by (destruct T as [-> |[_ (v & ->)]]; discriminate). clear T.
  destruct Hq as [-> | ->]; cbn [app].
  - destruct (starts_qmark (gt ++ x3f :: rest)); [|exact T'].
    destruct (match_group_qmark (skipn 1 _)); [discriminate|exact T'].
  - change (starts_qmark (x3f :: gt ++ x3f :: rest)) with true. cbn [skipn].
    destruct (match_group_qmark (gt ++ x3f :: rest)); [discriminate|]. congruence.
Qed.

Lemma find_query_some l : forall g, find_query l = Some g ->
  exists pre suf, l = pre ++ suf /\ match_query suf = Some g
    /\ forall pre1 suf1 g1, l = pre1 ++ suf1 -> query_at suf1 g1 -> (length pre <= length pre1)%nat.
Proof.
  induction l as [|b l IH]; intros g H; cbn [find_query] in H.
  - destruct (match_query []) eqn:E; [|discriminate]. injection H as ->. exists [], [].
    repeat split; auto. intros. cbn. lia.
  - destruct (match_query (b :: l)) eqn:E.
    + injection H as ->. exists [], (b :: l). repeat split; auto. intros. cbn. lia.
    + destruct (IH _ H) as (pre & suf & -> & H1 & H2). exists (b :: pre), suf. repeat split; auto.
      intros [|b1 pre1] suf1 g1 E1 Q1; cbn [app] in E1.
      * subst suf1. apply match_query_complete in Q1. congruence.
      * injection E1 as <- E1. cbn [length]. pose proof (H2 _ _ _ E1 Q1). lia.
Qed.

Lemma find_query_none l : find_query l = None <-> ~ has_query l.
Proof.
  split.
  - intros H (pre & suf & g & -> & Q). induction pre as [|b pre IH]; cbn [app find_query] in H.
    + destruct suf; cbn [find_query] in H; destruct (match_query _) eqn:E; try discriminate;
        now apply match_query_complete in Q.
    + destruct (match_query _); [discriminate|auto].
  - intros H. destruct (find_query l) as [g|] eqn:E; [|reflexivity]. exfalso. apply H.
    apply find_query_some in E as (pre & suf & -> & M & _). exists pre, suf, g. split; [reflexivity|].
    now apply match_query_ok.
Qed.

Lemma find_query_cons b l : b <> x3f -> find_query (b :: l) = find_query l.
Proof.
  intros Hb. cbn [find_query]. unfold match_query. cbn [starts_with].
  replace (byte_eqb x3f b) with false; [reflexivity|]. symmetry. apply byte_eqb_neq. congruence.
Qed.
Lemma find_query_skip bl t : ~ In x3f bl -> find_query (bl ++ t) = find_query t.
Proof.
  induction bl as [|b bl IH]; intros H; cbn [app]; [reflexivity|].
  rewrite find_query_cons by (intros ->; apply H; now left). apply IH. intros Hi. apply H. now right.
Qed.

(** ** Queries *)

Lemma query_versions_in g : (In V3 (query_versions g) <-> In x33 g) /\ (In V4 (query_versions g) <-> In x34 g)
  /\ Forall (fun v => v = V3 \/ v = V4) (query_versions g).
Proof.
  induction g as [|b g (I1 & I2 & I3)]; cbn [query_versions]; [repeat split; try contradiction; constructor|].
  destruct (byte_eqb b x33) eqn:E3; [apply byte_eqb_eq in E3; subst b|].
  - split; [|split]; [cbn [In]; intuition| |constructor; auto].
    cbn [In]. intuition; try discriminate.
  - apply byte_eqb_neq in E3.
    destruct (byte_eqb b x34) eqn:E4; [apply byte_eqb_eq in E4; subst b|apply byte_eqb_neq in E4].
    + split; [|split]; [|cbn [In]; intuition|constructor; auto]. cbn [In]. intuition; try discriminate.
    + split; [|split]; [| |assumption]; cbn [In]; intuition congruence.
Qed.


Lemma vec_unique_cases vs : supported vs -> vs <> [] ->
  vec_unique vs = [V3] \/ vec_unique vs = [V4] \/ vec_unique vs = [V3; V4].
Proof.
  induction vs as [|v vs IH]; intros HF HN; [congruence|]. inversion HF as [|? ? Hv HF']; subst.
  unfold vec_unique in *. cbn [fold_right].
  destruct vs as [|w vs]; [destruct Hv as [-> | ->]; cbn; auto|].
  destruct (IH HF' ltac:(discriminate)) as [-> | [-> | ->]]; destruct Hv as [-> | ->]; cbn; auto.
Qed.
Lemma insert_version_in v x l : In x (insert_version v l) <-> (x = v \/ In x l) \/ False.
Proof.
  induction l as [|y l IH]; cbn [insert_version]; [cbn; intuition|].
  destruct (version_rank v <? version_rank y); [cbn; intuition|].
  destruct (N.eqb_spec (version_rank v) (version_rank y)) as [E|E]; [|cbn; rewrite IH; intuition].
  assert (v = y) by (destruct v, y; cbn in E; try lia; try reflexivity; f_equal; lia). subst. cbn. intuition.
Qed.
Lemma vec_unique_in x l : In x (vec_unique l) <-> In x l.
Proof.
  unfold vec_unique. induction l as [|v l IH]; cbn [fold_right]; [reflexivity|].
  rewrite insert_version_in, IH. cbn. intuition.
Qed.

Section WithCrypto2.
Context (C : Crypto).

Lemma query_round_trip vs : supported vs -> vs <> [] ->
  exists s, serialize_message (MsgQuery vs) = Ok s /\ parse C s = Ok (MsgQuery (vec_unique vs)).
Proof.
  intros HF HN. cbn [serialize_message]. destruct vs as [|v vs]; [congruence|].
  destruct (vec_unique_cases _ HF HN) as [-> | [-> | ->]]; cbn [concat_res query_char bind];
    (eexists; split; [reflexivity|]); vm_compute; reflexivity.
Qed.

Lemma parse_query_inv data vs :
  parse C data = Ok (MsgQuery vs) ->
  exists pre suf g, data = pre ++ suf /\ query_at suf (Some g) /\ vs = query_versions g
    /\ forall pre1 suf1 g1, data = pre1 ++ suf1 -> query_at suf1 g1 -> (length pre <= length pre1)%nat.
Proof.
  unfold parse. destruct (_ && _).
  - unfold parse_encoded_message. destruct (b64_decode _); [|discriminate]. intros H. bind_inv H. discriminate.
  - unfold parse_plain_message. destruct (starts_with _ _); [discriminate|].
    destruct (find_query data) as [[g|]|] eqn:E.
    + intros H. injection H as <-. apply find_query_some in E as (pre & suf & -> & M & L).
      exists pre, suf, g. repeat split; auto. now apply match_query_ok.
    + discriminate.
    + destruct (find_tag data) as [[[? gs] ?]|]; [|discriminate]. destruct (rev gs); discriminate.
Qed.

(** ** Whitespace tags *)

Lemma query_versions_named g : query_versions g = named_versions g.
Proof. reflexivity. Qed.
Lemma parse_whitespace_tags_nil f : parse_whitespace_tags f [] = [].
Proof. destruct f; reflexivity. Qed.
Lemma parse_whitespace_tags_one f g : length g = 8%nat -> parse_whitespace_tags (S f) g = tag_means g.
Proof.
  intros L. destruct g as [|b g]; [discriminate|].
  assert (F : firstn 8 (b :: g) = b :: g) by (rewrite <- L; apply firstn_all).
  assert (S : skipn 8 (b :: g) = []) by (rewrite <- L; apply skipn_all).
  cbn [parse_whitespace_tags]. rewrite F, S, parse_whitespace_tags_nil. reflexivity.
Qed.
Lemma parse_group_means g : length g = 8%nat -> parse_whitespace_tags 8 g = tag_means g.
Proof. apply parse_whitespace_tags_one. Qed.

(* a maximal tag at the start of l *)
Definition tag_at (l : bytes) (gs : list bytes) (after : bytes) : Prop :=
  Forall blank_group gs /\ ~ group_at after /\ l = WHITESPACE_PREFIX ++ concat gs ++ after.

Lemma forallb_Forall {A} (f : A -> bool) l : forallb f l = true <-> Forall (fun x => f x = true) l.
Proof.
  induction l as [|x l IH]; cbn; [split; constructor|]. rewrite andb_true_iff, IH. split.
  - intros [? ?]. now constructor.
  - intros H. inversion H. auto.
Qed.

Lemma forallb_blank l : forallb is_blank l = true <-> Forall blank_char l.
Proof.
  rewrite forallb_Forall, !Forall_forall. split; intros H x Hx; apply is_blank_iff; auto.
Qed.
Lemma group_at_iff l : group_at l <-> blank_group (firstn 8 l).
Proof.
  unfold group_at. split.
  - intros (g & r & [L B] & ->).
    replace (firstn 8 (g ++ r)) with g; [split; assumption|].
    rewrite <- L. now rewrite firstn_app, Nat.sub_diag, firstn_O, app_nil_r, firstn_all.
  - intros H. exists (firstn 8 l), (skipn 8 l). split; [assumption|]. symmetry. apply firstn_skipn.
Qed.
Lemma group_test l : Nat.eqb (length (firstn 8 l)) 8 && forallb is_blank (firstn 8 l) = true <-> group_at l.
Proof. rewrite group_at_iff. unfold blank_group. now rewrite andb_true_iff, Nat.eqb_eq, forallb_blank. Qed.

Lemma take_groups_spec fuel : forall l gs r, (length l <= fuel)%nat -> take_groups fuel l = (gs, r) ->
  Forall blank_group gs /\ ~ group_at r /\ l = concat gs ++ r.
Proof.
  induction fuel as [|fuel IH]; intros l gs r HL H; cbn [take_groups] in H.
  - injection H as <- <-. destruct l; [|cbn in HL; lia]. repeat split; auto. intros X. apply group_at_iff in X as [X _]. discriminate.
  - destruct (_ && _) eqn:E.
    + destruct (take_groups fuel (skipn 8 l)) as [gs' r'] eqn:ET. injection H as <- <-.
      apply group_test, group_at_iff in E. destruct E as [E1 E2].
      apply IH in ET as (H1 & H2 & H3).
      2: { rewrite skipn_length. rewrite firstn_length in E1. lia. }
      repeat split; auto.
      * constructor; [split; assumption|assumption].
      * transitivity (firstn 8 l ++ skipn 8 l); [now rewrite firstn_skipn|].
        rewrite H3. exact (app_assoc _ _ _).
    + injection H as <- <-. repeat split; auto. intros G. apply group_test in G. congruence.
Qed.

Lemma take_groups_app gs : forall fuel r, Forall blank_group gs -> ~ group_at r ->
  (length (concat gs ++ r) <= fuel)%nat -> take_groups fuel (concat gs ++ r) = (gs, r).
Proof.
  induction gs as [|g gs IH]; intros fuel r HF HG HL.
  - cbn [concat app] in *. destruct fuel; cbn [take_groups]; [reflexivity|].
    destruct (_ && _) eqn:E; [|reflexivity]. apply group_test in E. contradiction.
  - inversion HF as [|? ? [G1 G2] HF']; subst. cbn [concat] in *. rewrite <- app_assoc in *.
    destruct fuel as [|fuel]; [rewrite app_length in HL; lia|]. cbn [take_groups].
    assert (F : firstn 8 (g ++ concat gs ++ r) = g).
    { rewrite <- G1 at 1. now rewrite firstn_app, Nat.sub_diag, firstn_O, app_nil_r, firstn_all. }
    assert (S : skipn 8 (g ++ concat gs ++ r) = concat gs ++ r).
    { rewrite <- G1 at 1. now rewrite skipn_app, Nat.sub_diag, skipn_all. }
    rewrite F, S, G1. cbn [Nat.eqb andb]. apply forallb_blank in G2. rewrite G2.
    rewrite IH; auto. rewrite app_length in HL. lia.
Qed.

Lemma find_tag_some l : forall pre gs after, find_tag l = Some (pre, gs, after) ->
  exists suf, l = pre ++ suf /\ tag_at suf gs after
    /\ forall pre1 suf1, l = pre1 ++ WHITESPACE_PREFIX ++ suf1 -> (length pre <= length pre1)%nat.
Proof.
  induction l as [|b l IH]; intros pre gs after H; cbn [find_tag] in H.
  - discriminate.
  - destruct (starts_with WHITESPACE_PREFIX (b :: l)) eqn:E.
    + apply starts_with_iff in E as (r & E). rewrite E in *.
      change (skipn 16 (WHITESPACE_PREFIX ++ r)) with r in H.
      destruct (take_groups (length r) r) as [gs' af] eqn:ET. injection H as <- <- <-.
      apply take_groups_spec in ET as (H1 & H2 & ->); [|lia].
      eexists. split; [reflexivity|]. split; [split; [assumption|split; [assumption|reflexivity]]|].
      intros. cbn. lia.
    + destruct (find_tag l) as [[[pre' gs'] af']|] eqn:EF; [|discriminate]. injection H as <- <- <-.
      destruct (IH _ _ _ eq_refl) as (suf & -> & H1 & H2). exists suf. split; [reflexivity|]. split; [assumption|].
      intros [|b1 pre1] suf1 E1; cbn [app] in E1.
      * exfalso. rewrite E1 in E. change (starts_with WHITESPACE_PREFIX (WHITESPACE_PREFIX ++ suf1) = false) in E.
        rewrite starts_with_app in E. discriminate.
      * injection E1 as _ E1. apply H2 in E1. cbn [length]. lia.
Qed.
Lemma find_tag_none l : find_tag l = None <-> ~ has_tag l.
Proof.
  split.
  - intros H (pre & suf & ->). induction pre as [|b pre IH]; cbn [app] in H.
    + assert (E : starts_with WHITESPACE_PREFIX (WHITESPACE_PREFIX ++ suf) = true) by apply starts_with_app.
      unfold WHITESPACE_PREFIX in H at 1. cbn [app find_tag] in H.
      change (starts_with WHITESPACE_PREFIX (WHITESPACE_PREFIX ++ suf) = true) in E.
      match type of H with (if ?c then _ else _) = _ => replace c with true in H by (symmetry; exact E) end.
      destruct (take_groups _ _); discriminate.
    + cbn [find_tag] in H. destruct (starts_with _ _); [destruct (take_groups _ _); discriminate|].
      destruct (find_tag (pre ++ _)) as [[[? ?] ?]|]; [discriminate|]. now apply IH.
  - intros H. destruct (find_tag l) as [[[pre gs] af]|] eqn:E; [|reflexivity]. exfalso. apply H.
    apply find_tag_some in E as (suf & -> & (_ & _ & ->) & _). exists pre. eauto.
Qed.

(** ** Classification *)

Lemma parse_plain_error e : parse C (OTR_ERROR_PREFIX ++ e) = Ok (MsgError e).
Proof.
  unfold parse. change (starts_with OTR_ENCODED_PREFIX (OTR_ERROR_PREFIX ++ e)) with false. cbn [andb].
  unfold parse_plain_message. rewrite starts_with_app. reflexivity.
Qed.


Lemma looks_encoded_iff l :
  starts_with OTR_ENCODED_PREFIX l && ends_with OTR_ENCODED_SUFFIX l = true <-> looks_encoded l.
Proof.
  rewrite andb_true_iff, starts_with_iff, ends_with_iff. split.
  - intros [(a & ->) (b & E)]. destruct a as [|x a] using rev_ind.
    + exfalso. rewrite app_nil_r in E. apply (f_equal (@rev byte)) in E. rewrite rev_app_distr in E. discriminate.
    + clear IHa. exists a. rewrite app_assoc in E. apply app_inj_tail in E as [_ ->]. reflexivity.
  - intros (b & ->). split; [eauto|]. exists (OTR_ENCODED_PREFIX ++ b). now rewrite app_assoc.
Qed.

Lemma parse_plaintext l :
  ~ looks_encoded l -> ~ looks_error l -> ~ has_query l -> ~ has_tag l -> parse C l = Ok (MsgPlaintext l).
Proof.
  intros H1 H2 H3 H4. unfold parse.
  destruct (_ && _) eqn:E; [apply looks_encoded_iff in E; contradiction|].
  unfold parse_plain_message.
  destruct (starts_with OTR_ERROR_PREFIX l) eqn:E2; [apply starts_with_iff in E2; destruct (H2 E2)|].
  apply find_query_none in H3. apply find_tag_none in H4. now rewrite H3, H4.
Qed.

Lemma parse_plaintext_inv l b :
  parse C l = Ok (MsgPlaintext b) ->
  b = l /\ ~ looks_encoded l /\ ~ looks_error l /\ ~ has_query l /\ ~ has_tag l.
Proof.
  unfold parse. destruct (_ && _) eqn:E.
  - unfold parse_encoded_message. destruct (b64_decode _); [|discriminate]. intros H. bind_inv H. discriminate.
  - unfold parse_plain_message. destruct (starts_with OTR_ERROR_PREFIX l) eqn:E2; [discriminate|].
    destruct (find_query l) as [[g|]|] eqn:EQ; try discriminate.
    destruct (find_tag l) as [[[? gs] ?]|] eqn:ET; [destruct (rev gs); discriminate|].
    intros H. injection H as <-. apply find_query_none in EQ. apply find_tag_none in ET.
    repeat split; auto.
    + intros X. apply looks_encoded_iff in X. congruence.
    + intros X. apply starts_with_iff in X. congruence.
Qed.


Lemma find_query_bare l : find_query l = Some None -> bare_query l.
Proof.
  intros H. apply find_query_some in H as (pre & suf & -> & M & _). exists pre, suf.
  split; [reflexivity|]. split; [now apply match_query_ok|]. intros g Q.
  apply match_query_group in Q as (g' & E). congruence.
Qed.

Lemma parse_panic_inv l :
  parse C l = Panic ->
  looks_encoded l \/ bare_query l \/ bare_tag l.
Proof.
  unfold parse. destruct (_ && _) eqn:E; [apply looks_encoded_iff in E; auto|].
  unfold parse_plain_message. destruct (starts_with OTR_ERROR_PREFIX l) eqn:E2; [discriminate|].
  destruct (find_query l) as [[g|]|] eqn:EQ; [discriminate|intros _; right; left; now apply find_query_bare|].
  destruct (find_tag l) as [[[pre gs] af]|] eqn:ET; [|discriminate].
  destruct (rev gs) as [|g r] eqn:ER; [|discriminate]. intros _. right. right.
  apply find_tag_some in ET as (suf & -> & (_ & H2 & ->) & _).
  assert (gs = []) as -> by (destruct gs; [reflexivity|cbn in ER; destruct (rev gs); discriminate]).
  exists pre, af. auto.
Qed.

(** ** Round trip of tagged messages *)

Definition tags_of (vs : list version) : list bytes :=
  map (fun v => match v with V3 => WHITESPACE_TAG_OTRV3 | _ => WHITESPACE_TAG_OTRV4 end) vs.

Lemma serialize_tagged vs b : supported vs -> vs <> [] ->
  serialize_message (MsgTagged vs b) = Ok (WHITESPACE_PREFIX ++ concat (tags_of (vec_unique vs)) ++ b).
Proof.
  intros HF HN. cbn [serialize_message]. destruct vs as [|v vs]; [congruence|].
  destruct (vec_unique_cases _ HF HN) as [-> | [-> | ->]]; reflexivity.
Qed.

Lemma tags_blank vs : Forall blank_group (tags_of vs).
Proof.
  unfold tags_of. induction vs as [|v vs IH]; constructor; auto.
  destruct v; split; try reflexivity; repeat (apply Forall_cons || apply Forall_nil); apply is_blank_iff; reflexivity.
Qed.

Lemma blank_not_qmark bl : Forall blank_char bl -> ~ In x3f bl.
Proof. rewrite Forall_forall. intros H Hin. destruct (H _ Hin); discriminate. Qed.

Lemma concat_blank gs : Forall blank_group gs -> Forall blank_char (concat gs).
Proof. induction 1 as [|g gs [_ H] _ IH]; cbn; [constructor|]. apply Forall_app. auto. Qed.


Lemma tagged_parse vs b : supported vs -> vs <> [] ->
  ~ has_query b -> ~ has_tag b -> ~ group_at b ->
  exists s, serialize_message (MsgTagged vs b) = Ok s /\ parse C s = Ok (MsgTagged [highest vs] b).
Proof.
  intros HF HN HQ HT HG. rewrite serialize_tagged by assumption. eexists. split; [reflexivity|].
  set (gs := tags_of (vec_unique vs)).
  assert (BG : Forall blank_group gs) by apply tags_blank.
  set (s := WHITESPACE_PREFIX ++ concat gs ++ b).
  unfold parse.
  assert (SW : starts_with OTR_ENCODED_PREFIX s = false) by reflexivity. rewrite SW. cbn [andb].
  unfold parse_plain_message.
  assert (SE : starts_with OTR_ERROR_PREFIX s = false) by reflexivity. rewrite SE.
  assert (FQ : find_query s = None).
  { unfold s. rewrite app_assoc, find_query_skip; [now apply find_query_none|].
    apply blank_not_qmark. apply Forall_app. split; [|now apply concat_blank].
    repeat (apply Forall_cons || apply Forall_nil); apply is_blank_iff; reflexivity. }
  rewrite FQ.
  assert (FT : find_tag s = Some ([], gs, b)).
  { unfold s. unfold WHITESPACE_PREFIX at 1. cbn [app find_tag].
    match goal with |- (if ?c then _ else _) = _ =>
      replace c with true by (symmetry; exact (starts_with_app WHITESPACE_PREFIX (concat gs ++ b))) end.
    cbn [skipn]. rewrite (take_groups_app gs _ b BG HG) by lia. reflexivity. }
  rewrite FT.
  assert (CT : clean_tags (length s) s = b).
  { assert (exists n, length s = S n) as (n & ->) by (eexists; reflexivity).
    cbn [clean_tags]. rewrite FT. cbn [app].
    destruct n; cbn [clean_tags]; [reflexivity|].
    apply find_tag_none in HT. now rewrite HT. }
  rewrite CT.
  assert (exists g r, rev gs = g :: r /\ parse_whitespace_tags (length g) g = [highest vs]) as (g & r & E1 & E2).
  { unfold gs, highest.
    assert (HC : contains_version V4 vs = contains_version V4 (vec_unique vs)).
    { destruct (contains_version V4 vs) eqn:E1, (contains_version V4 (vec_unique vs)) eqn:E2; try reflexivity.
      - apply contains_version_in, vec_unique_in, contains_version_in in E1. congruence.
      - apply contains_version_in, (proj1 (vec_unique_in _ _)), contains_version_in in E2. congruence. }
    rewrite HC.
    destruct (vec_unique_cases _ HF HN) as [-> | [-> | ->]]; cbn [tags_of map rev app];
      eexists _, _; (split; [reflexivity|reflexivity]). }
  rewrite E1, E2. reflexivity.
Qed.

(* What a tagged message is read as, in general. *)
Lemma parse_tagged_inv l vs t :
  parse C l = Ok (MsgTagged vs t) ->
  ~ has_query l /\ exists pre gs g after, l = pre ++ WHITESPACE_PREFIX ++ concat (gs ++ [g]) ++ after
    /\ Forall blank_group (gs ++ [g]) /\ ~ group_at after
    /\ vs = tag_means g.
Proof.
  unfold parse. destruct (_ && _) eqn:E.
  - unfold parse_encoded_message. destruct (b64_decode _); [|discriminate]. intros H. bind_inv H. discriminate.
  - unfold parse_plain_message. destruct (starts_with OTR_ERROR_PREFIX l) eqn:E2; [discriminate|].
    destruct (find_query l) as [[g|]|] eqn:EQ; try discriminate.
    destruct (find_tag l) as [[[pre gs] af]|] eqn:ET; [|discriminate].
    destruct (rev gs) as [|g r] eqn:ER; [discriminate|].
    intros H. injection H as <- <-. apply find_query_none in EQ. split; [assumption|].
    apply find_tag_some in ET as (suf & -> & (H1 & H2 & ->) & _).
    assert (EG : gs = rev r ++ [g]) by (rewrite <- (rev_involutive gs), ER; reflexivity). subst gs.
    exists pre, (rev r), g, af. repeat split; auto.
    apply Forall_app in H1 as [_ H1]. apply Forall_inv in H1 as [H1 _]. rewrite H1. now apply parse_group_means.
Qed.

End WithCrypto2.
