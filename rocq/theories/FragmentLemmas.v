(* Statements about fragments put together from FragmentProofs.v and AssemblerProofs.v. *)
From Verif Require Import Base BaseLemmas Types Crypto Encoding Base64 Base64Proofs ClientProfile Messages SpecWire EncodingProofs Fragment
  SpecFragment FragmentProofs AssemblerProofs.
From Coq Require Import Lia ZifyN ZifyNat.
Local Open Scope N_scope.

Lemma encoded_chars v s r m t : encode_message v s r m = Ok t -> Forall fragment_char t.
Proof.
  unfold encode_message, serialize_message. intros H.
  match type of H with bind ?x _ = _ => destruct x as [b| |] eqn:E; cbn [bind] in H; try discriminate end.
  assert (E' : t = OTR_ENCODED_PREFIX ++ b64_encode b ++ OTR_ENCODED_SUFFIX) by congruence.
  rewrite E'. apply Forall_app; split; [|apply Forall_app; split].
  - repeat (apply Forall_cons || apply Forall_nil); apply payload_char; reflexivity.
  - eapply Forall_impl; [|apply b64_encode_chars]. intros c Hc. apply payload_char.
    clear - Hc. revert Hc. unfold b64_char. destruct c; vm_compute; intuition (try discriminate; try lia).
  - repeat (apply Forall_cons || apply Forall_nil); apply payload_char; reflexivity.
Qed.

Lemma pieces_in v id s r content fs f :
  pieces v id s r content fs -> In f fs ->
  fr_version f = v /\ fr_identifier f = id /\ fr_sender f = s /\ fr_receiver f = r
  /\ fr_total f = N.of_nat (length fs) /\ fr_payload f <> []
  /\ 1 <= fr_part f <= N.of_nat (length fs).
Proof.
  intros (_ & H2 & H3) Hf. rewrite Forall_forall in H3. specialize (H3 f Hf).
  assert (Hp : In (fr_part f) (map fr_part fs)) by now apply in_map.
  rewrite H2 in Hp. apply in_map_iff in Hp as (k & Hk & Hp). apply in_seq in Hp.
  repeat split; try tauto; lia.
Qed.
Lemma pieces_chars v id s r content fs f :
  pieces v id s r content fs -> Forall fragment_char content -> In f fs -> Forall fragment_char (fr_payload f).
Proof.
  intros (<- & _ & _) H Hf. apply Forall_concat in H. rewrite Forall_forall in H. apply H. now apply in_map.
Qed.

(* Everything about cutting a text into fragments. *)
Lemma cut_fragments max v s r rnd content fs :
  fragment_content max v s r rnd content = Ok fs ->
  legal_tag s -> s <> 0 -> legal_tag r -> length rnd = 4%nat ->
  let id := match v with V3 => [x00; x00; x00; x00] | _ => rnd end in
  pieces v id s r content fs /\ (2 <= length fs)%nat /\ N.of_nat (length fs) < 65536
  /\ forall f, In f fs ->
       encodable f /\ frag_typed f
       /\ exists t, encode_fragment f = Ok t /\ (length t <= max)%nat
            /\ length t = (header_size v + length (fr_payload f))%nat /\ match_fragment t = true
            /\ (Forall fragment_char content -> parse_fragment t = Ok (Some f)).
Proof.
  intros H Hs Hs0 Hr Hrnd id. apply fragment_ok in H as (Hv & HP & HN & H2 & HL).
  split; [exact HP|]. split; [assumption|]. split; [assumption|]. intros f Hf.
  destruct (pieces_in _ _ _ _ _ _ _ HP Hf) as (E1 & E2 & E3 & E4 & E5 & E6 & E7).
  assert (He : encodable f).
  { unfold encodable. rewrite E1, E3, E4, E5. repeat split; auto; lia. }
  assert (Ht : frag_typed f).
  { unfold frag_typed. rewrite E2, E3, E4, E5. apply legal_tag_bound in Hs, Hr.
    change (2 ^ 32) with 4294967296. repeat split; try lia. destruct v; auto. }
  split; [assumption|]. split; [assumption|].
  exists (frag_text f). rewrite Forall_forall in HL. specialize (HL f Hf).
  rewrite frag_text_length by (rewrite E1; assumption). rewrite E1.
  repeat split; auto using encode_ok, text_is_fragment.
  intros Hc. apply parse_text; auto.
  - intros EV. rewrite E2, <- E1, EV. reflexivity.
  - eapply pieces_chars; eauto.
Qed.
Lemma cut_valid max v s r rnd content fs :
  fragment_content max v s r rnd content = Ok fs ->
  N.of_nat max <= 256000 + N.of_nat (header_size v) -> Forall frag_valid fs.
Proof.
  intros H Hm. apply fragment_ok in H as (Hv & HP & HN & H2 & HL).
  apply Forall_forall. intros f Hf.
  destruct (pieces_in _ _ _ _ _ _ _ HP Hf) as (E1 & E2 & E3 & E4 & E5 & E6 & E7).
  rewrite Forall_forall in HL. specialize (HL f Hf). unfold frag_valid. rewrite E5, E1, E2.
  repeat split; auto; try lia. intros ->. reflexivity.
Qed.

(* end to end, version 3 *)
Lemma transport_v3 max s r rnd content fs :
  fragment_content max V3 s r rnd content = Ok fs -> N.of_nat max <= 256036 ->
  forall st, run inorder_assemble st fs
             = (mkInorder (N.of_nat (length fs)) (N.of_nat (length fs)) [],
                repeat (AsmErr IncompleteResult) (length fs - 1) ++ [AsmOk content]).
Proof.
  intros H Hm st. pose proof (cut_valid _ _ _ _ _ _ _ H) as HV.
  apply fragment_ok in H as (Hv & HP & HN & H2 & HL).
  eapply inorder_complete; eauto.
Qed.

(** ** Duplicates *)

Lemma make_room_sub fuel id m k a : map_get k (make_room fuel id m) = Some a -> map_get k m = Some a.
Proof.
  revert m; induction fuel as [|n IH]; intros m; cbn [make_room]; [auto|].
  destruct (map_get id m); [auto|]. destruct m as [|e m]; [auto|].
  destruct (Nat.leb _ _); [|auto]. intros H. apply IH in H.
  destruct (list_eq_dec Byte.byte_eq_dec k (fst (eldest_from e m))) as [->|N].
  - rewrite get_del_same in H. discriminate.
  - now rewrite get_del_other in H.
Qed.
Lemma make_room_present fuel id m : map_get id m <> None -> make_room fuel id m = m.
Proof. destruct fuel; cbn; [auto|]. now destruct (map_get id m). Qed.

Lemma slot_persist st f st' o id a a' :
  map_get id (un_map st) = Some a -> unordered_assemble st f = (st', o) -> o <> AsmPanic ->
  map_get id (un_map st') = Some a' ->
  length (as_parts a') = length (as_parts a)
  /\ forall i, nth i (as_parts a) [] <> [] -> nth i (as_parts a') [] = nth i (as_parts a) [].
Proof.
  intros G H Ho G'. destruct (valid_b f) eqn:V.
  2:{ unfold unordered_assemble in H. rewrite verify_valid, V in H. inversion H; subst.
      rewrite G in G'. inversion G'; subst; auto. }
  destruct (list_eq_dec Byte.byte_eq_dec id (fr_identifier f)) as [->|N].
  2:{ rewrite (step_pending _ _ _ _ _ H Ho N V) in G'. apply make_room_sub in G'.
      rewrite G in G'. inversion G'; subst; auto. }
  apply valid_b_iff in V as VV.
  unfold unordered_assemble in H. rewrite verify_valid, V in H. cbn [negb] in H.
  rewrite make_room_present in H by congruence. rewrite G in H.
  destruct (un_tick st =? 4294967295); [inversion H; congruence|].
  destruct (N.eqb_spec (N.of_nat (length (as_parts a))) (fr_total f)) as [T|]; cbn [negb] in H.
  2:{ inversion H; subst; cbn [un_map] in G'. rewrite get_set_same in G'. inversion G'; subst; auto. }
  destruct (is_empty (nth _ (as_parts a) [])) eqn:EM; cbn [negb] in H.
  2:{ inversion H; subst; cbn [un_map] in G'. rewrite get_set_same in G'. inversion G'; subst; auto. }
  set (ps := set_part _ _ _) in *.
  destruct (existsb is_empty ps); rewrite ?andb_true_r, ?andb_false_r in H.
  - destruct (MAX_MESSAGE_SIZE <? parts_size ps); inversion H; subst; cbn [un_map] in G'.
    + rewrite get_del_same in G'. discriminate.
    + rewrite get_set_same in G'. inversion G'; subst. cbn [as_parts]. unfold ps.
      rewrite set_part_length. split; [reflexivity|]. intros i Hi.
      rewrite set_part_nth by (destruct VV; lia).
      destruct (Nat.eqb_spec i (N.to_nat (fr_part f - 1))) as [->|]; [|reflexivity].
      destruct (nth _ (as_parts a) []); [congruence|discriminate].
  - inversion H; subst; cbn [un_map] in G'. rewrite get_del_same in G'. discriminate.
Qed.

Lemma slot_refused st g id a :
  map_get id (un_map st) = Some a -> un_tick st < 4294967295 ->
  frag_valid g -> fr_identifier g = id -> fr_total g = N.of_nat (length (as_parts a)) ->
  nth (N.to_nat (fr_part g - 1)) (as_parts a) [] <> [] ->
  exists st2, unordered_assemble st g = (st2, AsmErr UnexpectedFragment)
    /\ forall k, option_map as_parts (map_get k (un_map st2)) = option_map as_parts (map_get k (un_map st)).
Proof.
  intros G Ht Vg E1 E2 E3.
  unfold unordered_assemble. rewrite verify_valid, (proj2 (valid_b_iff g) Vg). cbn [negb].
  rewrite E1, make_room_present by congruence. rewrite G.
  destruct (N.eqb_spec (un_tick st) 4294967295); [lia|].
  cbn [as_parts]. rewrite E2, N.eqb_refl. cbn [negb].
  destruct (nth _ (as_parts a) []) eqn:EP; [congruence|]. cbn [is_empty negb].
  eexists; split; [reflexivity|]. intros k. cbn [un_map].
  destruct (list_eq_dec Byte.byte_eq_dec k id) as [->|N].
  - now rewrite get_set_same, G.
  - now rewrite get_set_other by assumption.
Qed.

Lemma accepted_slot st f st1 :
  unordered_assemble st f = (st1, AsmErr IncompleteResult) -> In (fr_identifier f) (pending st1) ->
  exists a, map_get (fr_identifier f) (un_map st1) = Some a /\ N.of_nat (length (as_parts a)) = fr_total f
    /\ nth (N.to_nat (fr_part f - 1)) (as_parts a) [] = fr_payload f /\ fr_payload f <> [].
Proof.
  intros H Hp. unfold unordered_assemble in H. rewrite verify_valid in H.
  destruct (valid_b f) eqn:V; cbn [negb] in H; [|discriminate]. apply valid_b_iff in V.
  destruct (un_tick st =? 4294967295); [discriminate|].
  set (store := match map_get _ _ with Some a => a | None => _ end) in *.
  destruct (N.eqb_spec (N.of_nat (length (as_parts store))) (fr_total f)) as [T|]; cbn [negb] in H; [|discriminate].
  destruct (is_empty (nth _ _ _)) eqn:EM; cbn [negb] in H; [|discriminate].
  set (ps := set_part _ _ _) in *.
  unfold pending in Hp. rewrite <- get_keys in Hp.
  destruct ((MAX_MESSAGE_SIZE <? parts_size ps) && existsb is_empty ps).
  - inversion H; subst st1; clear H. cbn [un_map] in *. rewrite get_del_same in Hp. congruence.
  - destruct (existsb is_empty ps); [|discriminate].
    inversion H; subst st1; clear H. cbn [un_map]. rewrite get_set_same. eexists; split; [reflexivity|].
    cbn [as_parts]. unfold ps. rewrite set_part_length. split; [assumption|].
    rewrite set_part_nth by (destruct V; lia). rewrite Nat.eqb_refl. split; [reflexivity|]. apply V.
Qed.

Lemma duplicate_later st f st1 l st2 os g :
  unordered_assemble st f = (st1, AsmErr IncompleteResult) ->
  run unordered_assemble st1 l = (st2, os) -> ~ In AsmPanic os ->
  (forall l1 l2, l = l1 ++ l2 -> In (fr_identifier f) (pending (fst (run unordered_assemble st1 l1)))) ->
  un_tick st2 < 4294967295 ->
  frag_valid g -> fr_identifier g = fr_identifier f -> fr_total g = fr_total f -> fr_part g = fr_part f ->
  exists st3, unordered_assemble st2 g = (st3, AsmErr UnexpectedFragment)
    /\ forall k, option_map as_parts (map_get k (un_map st3)) = option_map as_parts (map_get k (un_map st2)).
Proof.
  intros H Hr NP Hl Ht Vg E1 E2 E3.
  assert (K : exists a, map_get (fr_identifier f) (un_map st2) = Some a
     /\ N.of_nat (length (as_parts a)) = fr_total f
     /\ nth (N.to_nat (fr_part f - 1)) (as_parts a) [] = fr_payload f /\ fr_payload f <> []).
  { clear Ht Vg E1 E2 E3. revert st2 os Hr NP Hl. induction l as [|x l IH] using rev_ind; intros st2 os Hr NP Hl.
    - cbn in Hr. inversion Hr; subst. eapply accepted_slot; eauto. apply (Hl [] [] eq_refl).
    - rewrite run_app in Hr. destruct (run unordered_assemble st1 l) as [s1 o1] eqn:E.
      cbn [run] in Hr. destruct (unordered_assemble s1 x) as [s2 o2] eqn:E2. inversion Hr; subst.
      rewrite in_app_iff in NP. cbn in NP.
      destruct (IH s1 o1 eq_refl) as (a & G1 & G2 & G3 & G4); [tauto| |].
      { intros l1 l2 ->. apply (Hl l1 (l2 ++ [x])). now rewrite app_assoc. }
      specialize (Hl (l ++ [x]) [] ltac:(now rewrite app_nil_r)).
      rewrite run_app, E in Hl. cbn [run] in Hl. rewrite E2 in Hl. cbn [fst] in Hl.
      unfold pending in Hl. rewrite <- get_keys in Hl.
      destruct (map_get (fr_identifier f) (un_map st2)) as [a'|] eqn:G'; [|congruence].
      destruct (slot_persist s1 x st2 o2 _ a a' G1 E2) as [P1 P2]; auto.
      exists a'. split; [reflexivity|]. rewrite P1. split; [assumption|]. rewrite P2 by congruence. auto. }
  destruct K as (a & G1 & G2 & G3 & G4).
  eapply slot_refused; eauto; [congruence|]. rewrite E3. congruence.
Qed.

(* refusing malformed fragments *)
Lemma malformed_refused f :
  ~ frag_valid f -> (forall st, inorder_assemble st f = (st, AsmErr InvalidData))
                    /\ (forall st, unordered_assemble st f = (st, AsmErr InvalidData)).
Proof.
  intros H. assert (V : valid_b f = false).
  { apply not_true_iff_false. now rewrite valid_b_iff. }
  unfold inorder_assemble, unordered_assemble. rewrite verify_valid, V. auto.
Qed.
