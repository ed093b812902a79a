(* Messages of one session delivered to another: fragments, and the wire format. *)
From Verif Require Import Base BaseLemmas Types Crypto Encoding EncodingProofs Base64 ClientProfile Messages Fragment SpecFragment
  FragmentProofs AssemblerProofs FragmentLemmas KeyManager DataV3 Ratchet DataV4 AKE DAKE SMP SMP4 Protocol Session SpecWire
  Base64Proofs MessagesProofs WireLemmas SpecSession SessionProofs SessionPartyProofs SessionInvProofs SessionSendProofs SpecNet.
From Coq Require Import Lia ZifyN ZifyNat.
Local Open Scope N_scope.

(* no half-received OTRv4 message *)
Definition ready (a : assembler) : Prop := un_map (am_unordered a) = [].

(** ** OTRv4 fragments in order *)

Lemma existsb_app_repeat (l : list bytes) n : Forall (fun p => p <> []) l ->
  existsb is_empty (l ++ repeat [] n) = negb (Nat.eqb n 0).
Proof.
  intros F. induction F as [|x l N0 F IH]; cbn [app existsb].
  - destruct n; cbn [repeat existsb is_empty]; reflexivity.
  - rewrite IH. destruct x; [congruence|reflexivity].
Qed.
Lemma set_part_app l v n : set_part (length l) v (l ++ repeat [] (S n)) = (l ++ [v]) ++ repeat [] n.
Proof. induction l as [|x l IH]; cbn [length app set_part repeat]; [reflexivity|]. cbn [repeat app] in IH. now rewrite IH. Qed.
Lemma nth_app_repeat (l : list bytes) n : nth (length l) (l ++ repeat [] (S n)) [] = [].
Proof. rewrite app_nth2 by lia. now rewrite Nat.sub_diag. Qed.
Lemma concat_repeat n : concat (repeat [] n) = ([] : bytes).
Proof. induction n; auto. Qed.

Definition held (id : bytes) (t : N) (parts : list bytes) (n : nat) : list (bytes * assembly) :=
  match parts with [] => [] | _ => [(id, mkAssembly t (parts ++ repeat [] n))] end.

Definition finished (n : nat) (content : bytes) (os : list asm_result) : Prop :=
  os = repeat (AsmErr IncompleteResult) n ++ [AsmOk content]
  \/ exists k os', os = repeat (AsmErr IncompleteResult) k ++ AsmPanic :: os'.

Lemma unordered_in_order id rest total content : forall done st t,
  Forall (fun p => p <> []) done -> un_map st = held id t done (length rest) ->
  (0 < length rest)%nat ->
  total = N.of_nat (length done + length rest) ->
  map fr_part rest = map N.of_nat (seq (S (length done)) (length rest)) ->
  Forall (fun f => fr_identifier f = id /\ fr_total f = total /\ frag_valid f) rest ->
  concat done ++ concat (map fr_payload rest) = content -> N.of_nat (length content) <= 104857600 ->
  exists st' os, SpecFragment.run unordered_assemble st rest = (st', os) /\ finished (length rest - 1) content os /\
    (~ In AsmPanic os -> un_map st' = []).
Proof.
  induction rest as [|f rest IH]; [cbn; lia|].
  intros done st t FD UM _ TO PA FA CO SZ. cbn [length] in *.
  inversion FA as [|? ? (F1 & F2 & F3) FA']; subst x l. cbn [seq map] in PA.
  assert (P1 : fr_part f = N.of_nat (S (length done))) by congruence.
  assert (P2 : map fr_part rest = map N.of_nat (seq (S (S (length done))) (length rest))) by congruence.
  clear PA. apply valid_b_iff in F3 as V. destruct F3 as (_ & NE & _).
  cbn [SpecFragment.run]. destruct (unordered_assemble st f) as [st1 o] eqn:A.
  assert (X : (o = AsmPanic) \/
    (exists t1, un_map st1 = (if Nat.eqb (length rest) 0 then [] else held id t1 (done ++ [fr_payload f]) (length rest))) /\
    o = (if Nat.eqb (length rest) 0 then AsmOk content else AsmErr IncompleteResult)).
  { unfold unordered_assemble in A. rewrite verify_valid, V in A. cbn [negb] in A.
    assert (MR : make_room (length (un_map st)) (fr_identifier f) (un_map st) = un_map st).
    { rewrite UM. unfold held. destruct done as [|d done]; [reflexivity|]. cbn [length make_room map_get].
      now rewrite F1, bytes_eqb_refl. }
    rewrite MR in A.
    assert (ST : as_parts (match map_get (fr_identifier f) (un_map st) with Some a => a
                 | None => mkAssembly 0 (repeat [] (N.to_nat (fr_total f))) end) = done ++ repeat [] (S (length rest))).
    { rewrite UM, F1. unfold held. destruct done as [|d done]; cbn [map_get as_parts].
      - rewrite F2, TO. cbn [length app plus]. now rewrite Nat2N.id.
      - now rewrite bytes_eqb_refl. }
    set (store := match map_get _ _ with Some a => a | None => _ end) in *.
    destruct (un_tick st =? 4294967295); [left; congruence|]. right.
    rewrite ST in A.
    assert (LP : (N.of_nat (length (done ++ repeat ([] : bytes) (S (length rest)))) =? fr_total f) = true).
    { apply N.eqb_eq. rewrite F2, TO, app_length, repeat_length. reflexivity. }
    rewrite LP in A. cbn [negb] in A.
    assert (IX : N.to_nat (fr_part f - 1) = length done) by lia.
    rewrite IX, nth_app_repeat, set_part_app in A. cbn [is_empty negb] in A.
    assert (FD' : Forall (fun p => p <> []) (done ++ [fr_payload f])) by (apply Forall_app; auto).
    rewrite existsb_app_repeat in A by assumption.
    assert (SS : (MAX_MESSAGE_SIZE <? parts_size ((done ++ [fr_payload f]) ++ repeat [] (length rest))) = false).
    { apply N.ltb_ge. unfold parts_size. rewrite concat_app, concat_repeat, app_nil_r, concat_app.
      change MAX_MESSAGE_SIZE with 104857600.
      eapply N.le_trans; [|exact SZ]. rewrite <- CO. cbn [map concat]. rewrite app_nil_r, !app_length. lia. }
    rewrite SS in A. cbn [andb] in A. destruct (Nat.eqb (length rest) 0) eqn:E0; cbn [negb] in A.
    - apply Nat.eqb_eq in E0. destruct rest; [|discriminate].
      injection A as <- <-. cbn [un_map length repeat]. split.
      + exists 0. rewrite UM, F1. unfold held. destruct done; cbn [map_del]; [reflexivity|]. now rewrite bytes_eqb_refl.
      + f_equal. rewrite app_nil_r, concat_app, <- CO. cbn [map concat]. now rewrite app_nil_r.
    - injection A as <- <-. cbn [un_map]. split; [|reflexivity]. exists (un_tick st).
      rewrite UM, F1. unfold held. destruct done as [|d done]; cbn [map_set]; [reflexivity|].
      rewrite bytes_eqb_refl. reflexivity. }
  destruct (Nat.eqb_spec (length rest) 0) as [E0|N0].
  - destruct rest; [|discriminate]. cbn [SpecFragment.run].
    destruct X as [-> | ((t1 & U) & ->)].
    + exists st1, [AsmPanic]. split; [reflexivity|]. split; [right; exists 0%nat, []; reflexivity|]. cbn; tauto.
    + exists st1, [AsmOk content]. split; [reflexivity|]. split; [now left|auto].
  - destruct X as [-> | ((t1 & U) & ->)].
    + destruct (SpecFragment.run unordered_assemble st1 rest) as [st2 os]. exists st2, (AsmPanic :: os).
      split; [reflexivity|]. split; [right; exists 0%nat, os; reflexivity|]. cbn; tauto.
    + destruct (IH (done ++ [fr_payload f]) st1 t1) as (st2 & os & R & FI & UN); try assumption.
      * apply Forall_app; auto.
      * lia.
      * rewrite app_length. cbn [length]. lia.
      * rewrite app_length. cbn [length]. now rewrite Nat.add_1_r.
      * rewrite concat_app. cbn [concat]. rewrite app_nil_r, <- app_assoc. assumption.
      * rewrite R. exists st2, (AsmErr IncompleteResult :: os). split; [reflexivity|]. split.
        -- destruct FI as [-> | (k & os' & ->)].
           ++ left. replace (S (length rest) - 1)%nat with (S (length rest - 1)) by lia. reflexivity.
           ++ right. exists (S k), os'. reflexivity.
        -- intros NP. apply UN. intros X. apply NP. now right.
Qed.

(* all fragments of a message, for either version *)
Lemma assemble_in_order v id s r content fs a :
  otr_version v -> pieces v id s r content fs -> Forall frag_valid fs -> (2 <= length fs)%nat ->
  N.of_nat (length fs) < 65536 ->
  N.of_nat (length content) <= 104857600 -> ready a ->
  exists a' os, SpecFragment.run assemble a fs = (a', os) /\ finished (length fs - 1) content os /\
    (~ In AsmPanic os -> ready a').
Proof.
  intros V PI FV LE BD SZ RE. pose proof PI as (P1 & P2 & P3).
  destruct V as [-> | ->].
  - assert (L : forall l b, Forall (fun f => fr_version f = V3) l ->
       SpecFragment.run assemble b l = (mkAssembler (fst (SpecFragment.run inorder_assemble (am_inorder b) l)) (am_unordered b),
                           snd (SpecFragment.run inorder_assemble (am_inorder b) l))).
    { induction l as [|f l IH]; intros b F; cbn [SpecFragment.run fst snd]; [now destruct b|].
      inversion F as [|? ? F1 F2]; subst. unfold assemble at 1. rewrite F1.
      destruct (inorder_assemble (am_inorder b) f) as [st o]. rewrite IH by assumption. cbn [am_inorder am_unordered].
      now destruct (SpecFragment.run inorder_assemble st l). }
    rewrite L; [|eapply Forall_impl; [|exact P3]; cbn; tauto].
    rewrite (inorder_complete id s r content fs (am_inorder a)); try assumption.
    cbn [fst snd]. eexists _, _. split; [reflexivity|]. split; [now left|]. intros _. exact RE.
  - assert (L : forall l b, Forall (fun f => fr_version f = V4) l ->
       SpecFragment.run assemble b l = (mkAssembler (am_inorder b) (fst (SpecFragment.run unordered_assemble (am_unordered b) l)),
                           snd (SpecFragment.run unordered_assemble (am_unordered b) l))).
    { induction l as [|f l IH]; intros b F; cbn [SpecFragment.run fst snd]; [now destruct b|].
      inversion F as [|? ? F1 F2]; subst. unfold assemble at 1. rewrite F1.
      destruct (unordered_assemble (am_unordered b) f) as [st o]. rewrite IH by assumption. cbn [am_inorder am_unordered].
      now destruct (SpecFragment.run unordered_assemble st l). }
    rewrite L; [|eapply Forall_impl; [|exact P3]; cbn; tauto].
    destruct (unordered_in_order id fs (N.of_nat (length fs)) content [] (am_unordered a) 0) as (st' & os & R & FI & UN);
      try assumption; try reflexivity.
    + constructor.
    + lia.
    + rewrite Forall_forall in *. intros f I. specialize (P3 f I). specialize (FV f I). tauto.
    + rewrite R. cbn [fst snd]. eexists _, _. split; [reflexivity|]. auto.
Qed.

(** ** Receiving the fragments *)

Section WithCrypto.
Context (C : Crypto).

Lemma entry_put s t i : entry t (se_instances (put s t i)) = i.
Proof. unfold entry. now rewrite get_put_same. Qed.
Lemma set_set t i j l : set_inst t j (set_inst t i l) = set_inst t j l.
Proof.
  induction l as [|[k x] l IH]; cbn [set_inst]; [now rewrite N.eqb_refl|].
  destruct (k =? t) eqn:E; cbn [set_inst]; rewrite E; [reflexivity|]. now rewrite IH.
Qed.
Lemma put_put s t i j : put (put s t i) t j = put s t j.
Proof. unfold put, with_instances. cbn [se_instances se_details se_tagged]. now rewrite set_set. Qed.

Definition goes_to (d : details) (sd : N) (f : fragment) (p : bytes) : Prop :=
  match_fragment p = true /\ parse_fragment p = Ok (Some f) /\ verify_fragment f = true /\ fr_sender f = sd /\
  (fr_receiver f = 0 \/ fr_receiver f = de_tag d).

Lemma receive_frags d e sd content fs ps : enabled d -> match_fragment content = false ->
  Forall2 (goes_to d sd) fs ps -> forall s k a' os, se_details s = d ->
  SpecFragment.run assemble (in_assembler (entry sd (se_instances s))) fs = (a', os) -> finished k content os ->
  forall s' out rs, receive_all C e s ps = (s', out, rs) -> ~ In Panic rs ->
  ~ In AsmPanic os /\
  exists r, receive_message C e (put s sd (set_assembler (entry sd (se_instances s)) a')) content = (s', out, r) /\
    rs = repeat (Ok UMNone) k ++ [r].
Proof.
  intros EN MF F. induction F as [|f p fs ps (G1 & G2 & G3 & G4 & G5) F IH]; intros s k a' os D R FI s' out rs H NP.
  { cbn [SpecFragment.run] in R. injection R as <- <-.
    destruct FI as [X | (k0 & os' & X)]; [destruct k|destruct k0]; discriminate. }
  cbn [SpecFragment.run] in R. destruct (assemble _ f) as [a1 o] eqn:A.
  destruct (SpecFragment.run assemble a1 fs) as [a2 os1] eqn:R1. injection R as <- <-.
  cbn [receive_all] in H. destruct (receive C e s p) as [[s1 o1] r1] eqn:RC.
  destruct (receive_all C e s1 ps) as [[s2 o2] rs2] eqn:RA. fin3 H.
  assert (NP1 : r1 <> Panic) by (intros ->; apply NP; now left).
  assert (NP2 : ~ In Panic rs2) by (intros X; apply NP; now right).
  unfold receive in RC. rewrite D, (enabled_not_disabled _ EN), G1, G2, G3 in RC. cbn [negb] in RC.
  assert (RV : negb (fr_receiver f =? 0) && negb (fr_receiver f =? de_tag d) = false).
  { destruct G5 as [-> | ->]; [reflexivity|]. now rewrite N.eqb_refl, Bool.andb_false_r. }
  rewrite RV, G4, A in RC.
  assert (STEP : forall k', o = AsmErr IncompleteResult -> finished k' content os1 ->
     (~ In AsmPanic (o :: os1) /\
      exists r, receive_message C e (put s sd (set_assembler (entry sd (se_instances s)) a2)) content = (s2, o1 ++ o2, r) /\
        r1 :: rs2 = repeat (Ok UMNone) (S k') ++ [r])).
  { intros k' -> FI'. fin3 RC.
    assert (R1' : SpecFragment.run assemble (in_assembler (entry sd (se_instances
      (put s sd (set_assembler (entry sd (se_instances s)) a1))))) fs = (a2, os1)) by (rewrite entry_put; exact R1).
    destruct (IH (put s sd (set_assembler (entry sd (se_instances s)) a1)) k' a2 os1 D R1' FI' _ _ _ RA NP2) as (N1 & r & X & E).
    split; [cbn [In]; intros [?|?]; [discriminate|contradiction]|]. exists r. split.
    - rewrite put_put, entry_put in X. exact X.
    - rewrite E. reflexivity. }
  destruct FI as [X | (k0 & os' & X)].
  - destruct k as [|k]; cbn [repeat app] in X; injection X as -> X.
    + subst os1. assert (fs = []) as ->.
      { apply (f_equal (fun x => length (snd x))) in R1. cbn [snd length] in R1.
        destruct fs; [reflexivity|]. cbn [SpecFragment.run] in R1. destruct (assemble a1 f0). destruct (SpecFragment.run assemble a fs). discriminate. }
      inversion F; subst. cbn [receive_all] in RA. fin3 RA. cbn [SpecFragment.run] in R1. injection R1 as <-.
      rewrite MF in RC. destruct (receive_message C e _ content) as [[s4 o4] r4] eqn:RM.
      assert (s4 = s1 /\ o4 = o1 /\ r4 = r1) as (-> & -> & ->) by (destruct r4; fin3 RC; auto; congruence).
      rewrite app_nil_r. split; [cbn; intros [?|[]]; discriminate|]. exists r1. auto.
    + apply STEP; [reflexivity|]. now left.
  - destruct k0 as [|k0]; cbn [repeat app] in X; injection X as -> X.
    + fin3 RC. congruence.
    + destruct (STEP 0%nat eq_refl) as (N1 & _); [right; eauto|]. exfalso. apply N1. right. rewrite X.
      apply in_or_app. right. now left.
Qed.

(* what the receiver's session looks like when the message is complete *)
Definition reassembled (s : session) (sd : N) (s1 : session) : Prop :=
  se_details s1 = se_details s /\ (forall u, u <> sd -> get_inst u (se_instances s1) = get_inst u (se_instances s)) /\
  (exists a, ready a /\ entry sd (se_instances s1) = set_assembler (entry sd (se_instances s)) a) /\
  (forall i, put s1 sd i = put s sd i) /\ (sinv s -> sinv s1).

Lemma encoded_not_fragment v sd rc m b : encode_message v sd rc m = Ok b -> match_fragment b = false.
Proof.
  unfold encode_message, serialize_message. intros H.
  match type of H with bind ?x _ = _ => destruct x as [c| |] eqn:E; cbn [bind] in H; try discriminate end.
  assert (E' : b = OTR_ENCODED_PREFIX ++ b64_encode c ++ OTR_ENCODED_SUFFIX) by congruence.
  subst b. unfold match_fragment. reflexivity.
Qed.

Lemma forall2_length {A B} (P : A -> B -> Prop) l l' : Forall2 P l l' -> length l = length l'.
Proof. induction 1; cbn; congruence. Qed.
Lemma forall2_in {A B} (P : A -> B -> Prop) l l' a : Forall2 P l l' -> In a l -> exists b, In b l' /\ P a b.
Proof. induction 1; cbn [In]; [easy|]. intros [->|I]; [eauto|]. apply IHForall2 in I as (b & ? & ?). eauto. Qed.
Lemma set_assembler_id i : set_assembler i (in_assembler i) = i.
Proof. now destruct i. Qed.

Lemma parcel da e0 rcv v m ps s :
  transported da e0 rcv v m ps -> otr_version v -> legal_details da -> env_ok e0 -> SpecWire.legal_tag rcv ->
  (rcv = 0 \/ rcv = de_tag (se_details s)) -> enabled (se_details s) -> transportable ps ->
  ready (in_assembler (entry (de_tag da) (se_instances s))) ->
  exists b, encode_message v (de_tag da) rcv m = Ok b /\ N.of_nat (length b) <= 104857600 /\
  forall e s' out rs, receive_all C e s ps = (s', out, rs) -> ~ In Panic rs ->
  exists s1 r, reassembled s (de_tag da) s1 /\ receive_message C e s1 b = (s', out, r) /\ rs = answered (length ps) r.
Proof.
  intros (b & EM & T) V LD EO LR RC EN (TP1 & TP2) RE. exists b. split; [assumption|].
  pose proof (encoded_not_fragment _ _ _ _ _ EM) as NF.
  destruct T as [(LE & ->) | (GT & fs & FC & F2)].
  - split; [cbn [concat] in TP1; now rewrite app_nil_r in TP1|].
    intros e s' out rs H NP. exists s. cbn [receive_all] in H.
    destruct (receive C e s b) as [[s1 o1] r1] eqn:R. fin3 H. exists r1. split; [|split; [|reflexivity]].
    + split; [reflexivity|]. split; [reflexivity|]. split; [|auto].
      exists (in_assembler (entry (de_tag da) (se_instances s))). split; [assumption|]. now rewrite set_assembler_id.
    + unfold receive in R. rewrite (enabled_not_disabled _ EN), NF in R. now rewrite app_nil_r.
  - destruct LD as [LD1 LD2].
    assert (LS : SpecWire.legal_tag (de_tag da)) by (right; lia).
    destruct (cut_fragments _ _ _ _ _ _ _ FC LS) as (PI & L2 & LB & FF); [lia|assumption|exact EO|].
    set (id := match v with V3 => [x00; x00; x00; x00] | _ => ev_fragment e0 end) in *.
    pose proof (encoded_chars _ _ _ _ _ EM) as CH.
    assert (LP : length ps = length fs) by (symmetry; eapply forall2_length; eassumption).
    assert (TT : forall f, In f fs -> exists p, In p ps /\ encode_fragment f = Ok p).
    { intros f I. eapply forall2_in in F2 as (p & I' & E); [|exact I]. eauto. }
    assert (FV : Forall frag_valid fs).
    { rewrite Forall_forall. intros f I. destruct (TT f I) as (p & IP & E).
      destruct (FF f I) as (EC & FT & t & E' & _ & LT & _). assert (p = t) as -> by congruence.
      assert (TL : N.of_nat (length t) <= 256036).
      { specialize (TP2 ltac:(lia)). rewrite Forall_forall in TP2. now apply TP2. }
      destruct (pieces_in _ _ _ _ _ _ _ PI I) as (E1 & E2 & _ & _ & E5 & E6 & E7).
      unfold frag_valid. rewrite E5. split; [lia|]. split; [assumption|]. split.
      - destruct V as [-> | ->]; cbn [header_size] in LT; lia.
      - intros X. rewrite E2. unfold id. now rewrite <- E1, X. }
    assert (SZ : N.of_nat (length b) <= 104857600).
    { eapply N.le_trans; [|exact TP1]. destruct PI as (P1 & _ & _). rewrite <- P1.
      clear - F2 FF. assert (FL : Forall2 (fun f p => (length (fr_payload f) <= length p)%nat) fs ps).
      { revert FF. induction F2 as [|f p fs ps E F IH]; intros FF; [constructor|].
        constructor.
        - destruct (FF f (or_introl eq_refl)) as (_ & _ & t & E' & _ & LT & _).
          assert (p = t) as -> by congruence. lia.
        - apply IH. intros g I. apply FF. now right. }
      clear - FL. induction FL as [|f p fs ps L F IH]; cbn [map concat]; [lia|]. rewrite !app_length. lia. }
    split; [assumption|]. intros e s' out rs H NP.
    destruct (assemble_in_order v id (de_tag da) rcv b fs _ V PI FV ltac:(lia) LB SZ RE) as (a' & os & R & FI & RA).
    assert (GT2 : Forall2 (goes_to (se_details s) (de_tag da)) fs ps).
    { clear - F2 FF FV CH PI RC. assert (PIN : forall f, In f fs -> fr_sender f = de_tag da /\ fr_receiver f = rcv).
      { intros f I. destruct (pieces_in _ _ _ _ _ _ f PI I) as (_ & _ & E3 & E4 & _). auto. } clear PI.
      revert FF FV PIN. induction F2 as [|f p fs ps E F IH]; intros FF FV PIN; [constructor|].
      inversion FV as [|? ? FV1 FV2]; subst. constructor.
      - destruct (FF f (or_introl eq_refl)) as (_ & _ & t & E' & _ & _ & MT & PT).
        assert (p = t) as -> by congruence.
        destruct (PIN f (or_introl eq_refl)) as (E3 & E4).
        split; [assumption|]. split; [auto|]. split; [rewrite verify_valid; now apply valid_b_iff|].
        split; [assumption|]. now rewrite E4.
      - apply IH; [intros g I; apply FF; now right|assumption|].
        intros g I. exact (PIN g (or_intror I)). }
    destruct (receive_frags (se_details s) e (de_tag da) b fs ps EN NF GT2 s _ a' os eq_refl R FI _ _ _ H NP)
      as (N1 & r & X & E).
    eexists _, r. split; [|split; [exact X|]].
    + split; [reflexivity|]. split; [intros u NE; now apply get_put_other; congruence|]. split.
      * exists a'. split; [auto|]. now rewrite entry_put.
      * split; [intros i; apply put_put|]. intros SI. apply sinv_put; [assumption| | |]; cbn [in_receiver set_assembler in_state].
        -- now apply sinv_entry.
        -- intros Z. lia.
        -- rewrite entry_state. now apply sinv_party.
    + rewrite E. unfold answered. now rewrite LP.
Qed.

(** ** Messages that fit the transport fit the format *)

(* the requirements of the format other than sizes *)
Definition shaped (v : version) (m : encoded_type) : Prop :=
  match v, m with
  | V3, MDHCommit _ | V3, MDHKey _ => True
  | V3, MRevealSig m => length (rv_key m) = 16%nat /\ length (rv_signature_mac m) = MAC_LEN
  | V3, MSignature m => length (sg_signature_mac m) = MAC_LEN
  | V3, MData m =>
      keyid_range (d3_sender_keyid m) /\ keyid_range (d3_receiver_keyid m) /\ length (d3_ctr m) = CTR_LEN /\
      length (d3_authenticator m) = MAC_LEN
  | V4, MIdentity m => payload_wire_ok C (id_profile m) /\ point_wire_ok C (id_y m) /\ point_wire_ok C (id_ecdh0 m)
  | V4, MAuthR m =>
      payload_wire_ok C (ar_profile m) /\ point_wire_ok C (ar_x m) /\ ring_range C (ar_sigma m) /\
      point_wire_ok C (ar_ecdh0 m)
  | V4, MAuthI m => ring_range C (ai_sigma m)
  | V4, MData4 m =>
      d4_pn m < 4294967296 /\ d4_i m < 4294967296 /\ d4_j m < 4294967296 /\ point_wire_ok C (d4_ecdh m) /\
      d4_dh m <> Some 0 /\ length (d4_authenticator m) = MAC4_LEN /\ (length (d4_revealed m) mod 64 = 0)%nat
  | _, _ => False
  end.

Lemma write_data_size v n : (length (write_data v) <= n)%nat -> (length v <= n)%nat.
Proof. unfold write_data. rewrite app_length. lia. Qed.
Lemma write_mpi_size v n : (length (write_mpi v) <= n)%nat -> (byte_len v <= n)%nat.
Proof.
  destruct (N.eq_dec v 0) as [->|N0]; [rewrite byte_len_0; lia|].
  rewrite write_mpi_nonzero by assumption. intros H. apply write_data_size in H. now rewrite be_bytes_length in H.
Qed.
Lemma encoded_size v sd rc m b : encode_message v sd rc m = Ok b ->
  exists c, write_content m = Ok c /\ (length c <= length b)%nat.
Proof.
  unfold encode_message, serialize_message, write_encoded_message. cbn [em_version em_message em_sender em_receiver]. intros H.
  destruct (encode_version v) as [vn| |]; cbn [bind] in H; try discriminate.
  destruct (type_code m) as [t| |]; cbn [bind] in H; try discriminate.
  destruct (write_content m) as [c| |]; cbn [bind] in H; try discriminate. exists c. split; [reflexivity|].
  assert (OI : forall A (a b : A), Ok a = Ok b -> b = a) by congruence. apply OI in H. subst b.
  rewrite !app_length, b64_encode_length, !app_length.
  pose proof (Nat.div_mod_eq (length (write_u16 vn) + (length (write_u8 t) + (length (write_u32 sd) + (length (write_u32 rc) + length c))) + 2) 3) as E.
  pose proof (Nat.mod_upper_bound (length (write_u16 vn) + (length (write_u8 t) + (length (write_u32 sd) + (length (write_u32 rc) + length c))) + 2) 3).
  lia.
Qed.
Lemma shaped_content v sd rc m b : encode_message v sd rc m = Ok b -> N.of_nat (length b) <= 104857600 -> shaped v m ->
  content_ok C v m.
Proof.
  intros H L S. apply encoded_size in H as (c & W & LC).
  assert (B : N.of_nat (length c) <= 104857600) by lia. clear L LC.
  assert (PD : forall v n, (length (write_data v) <= n)%nat -> N.of_nat n <= 104857600 -> fits32 v).
  { intros x n L1 L2. apply write_data_size in L1. unfold fits32. lia. }
  assert (PM : forall v n, (length (write_mpi v) <= n)%nat -> N.of_nat n <= 104857600 -> mpi_range v).
  { intros x n L1 L2. apply write_mpi_size in L1. unfold mpi_range. lia. }
  assert (OI : forall A (a b : A), Ok a = Ok b -> b = a) by congruence.
  destruct v; cbn [shaped] in S; try easy; destruct m; try easy; cbn [write_content content_ok] in *.
  1-5: apply OI in W; subst c.
  - unfold write_dh_commit in B. rewrite app_length in B. split; eapply PD; try exact B; lia.
  - unfold write_dh_key in B. eapply PM; try exact B; lia.
  - destruct S. unfold write_reveal_sig in B. rewrite !app_length in B. split; [assumption|]. split; [|assumption]. eapply PD; try exact B; lia.
  - unfold write_sig_msg in B. rewrite !app_length in B. split; [|assumption]. eapply PD; try exact B; lia.
  - destruct S as (S1 & S2 & S3 & S4). unfold write_data3 in B. rewrite !app_length in B.
    repeat (split; [assumption || (eapply PM; try exact B; lia) || (eapply PD; try exact B; lia)|]). eapply PD; try exact B; lia.
  - apply OI in W; subst c. destruct S as (S1 & S2 & S3). unfold write_identity in B. rewrite !app_length in B.
    repeat (split; [assumption || (eapply PM; try exact B; lia)|]). eapply PM; try exact B; lia.
  - apply OI in W; subst c. destruct S as (S1 & S2 & S3 & S4). unfold write_authr in B. rewrite !app_length in B.
    repeat (split; [assumption || (eapply PM; try exact B; lia)|]). eapply PM; try exact B; lia.
  - destruct S as (S1 & S2 & S3 & S4 & S5 & S6 & S7). rewrite S7 in W. cbn [Nat.eqb] in W. apply OI in W; subst c.
    unfold write_data4 in B. rewrite !app_length in B.
    repeat (split; [assumption || (eapply PD; try exact B; lia)|]).
    assert (MD : match d4_dh m with Some d => d <> 0 /\ mpi_range d | None => True end).
    { destruct (d4_dh m) as [n|]; cbn [dh_or_zero] in B; [|exact I]. split; [congruence|]. eapply PM; try exact B; lia. }
    repeat (split; [assumption || (eapply PD; try exact B; lia)|]). assumption.
Qed.

(* a message of one client, received by the other *)
Lemma delivered_encoded da e0 rcv v m ps s :
  transported da e0 rcv v m ps -> otr_version v -> shaped v m -> legal_details da -> env_ok e0 -> SpecWire.legal_tag rcv ->
  (rcv = 0 \/ rcv = de_tag (se_details s)) -> enabled (se_details s) -> transportable ps ->
  ready (in_assembler (entry (de_tag da) (se_instances s))) ->
  wire_ok C (mkEncoded v (de_tag da) rcv m) /\
  forall e s' out rs, receive_all C e s ps = (s', out, rs) -> ~ In Panic rs ->
  exists s1 r, reassembled s (de_tag da) s1 /\ receive_encoded C e s1 (mkEncoded v (de_tag da) rcv m) = (s', out, r) /\
    rs = answered (length ps) r /\ r <> Panic.
Proof.
  intros T V SH LD EO LR RC EN TP RE.
  destruct (parcel da e0 rcv v m ps s T V LD EO LR RC EN TP RE) as (b & EM & SZ & H).
  assert (W : wire_ok C (mkEncoded v (de_tag da) rcv m)).
  { split; [right; exact LD|]. split; [exact LR|]. eapply shaped_content; eassumption. }
  split; [assumption|]. intros e s' out rs RA NP. destruct (H e s' out rs RA NP) as (s1 & r & R1 & R2 & R3).
  exists s1, r. split; [assumption|]. split; [|split; [assumption|]].
  - unfold receive_message in R2. destruct (encoded_round_trip C _ W) as (b' & E1 & E2).
    assert (b' = b) as -> by (unfold encode_message in EM; congruence). now rewrite E2 in R2.
  - intros ->. apply NP. rewrite R3. apply in_or_app. right. now left.
Qed.

(* the header checks pass *)
Lemma encoded_addressed e s sd rc v m : otr_version v -> 256 <= sd -> allowed (se_details s) v ->
  (rc = de_tag (se_details s) /\ 256 <= rc \/ rc = 0 /\ match m with MDHCommit _ | MIdentity _ => True | _ => False end) ->
  receive_encoded C e s (mkEncoded v sd rc m) =
  let handle i := inst_handle C (se_details s) e i (mkEncoded v sd rc m) in
  match v, m with
  | V3, MDHKey _ =>
      match get_inst 0 (se_instances s) with
      | None => (s, [], Panic)
      | Some z =>
          match transfer_ake_context z with
          | Panic => (s, [], Panic)
          | Ok a => on_entry s sd (fun i => match adopt_ake_context i a with Ok i => handle i | _ => (i, [], Panic) end)
          | Err _ => on_entry s sd handle
          end
      end
  | V4, MAuthR _ =>
      match get_inst 0 (se_instances s) with
      | None => (s, [], Panic)
      | Some z =>
          match transfer_dake_context z with
          | Panic => (s, [], Panic)
          | Ok a => on_entry s sd (fun i => match adopt_dake_context i a with Ok i => handle i | _ => (i, [], Panic) end)
          | Err _ => on_entry s sd handle
          end
      end
  | _, _ => on_entry s sd handle
  end.
Proof.
  intros V SD AL RC. unfold receive_encoded. cbn [em_sender em_version em_message].
  assert (sd =? 0 = false) as -> by (apply N.eqb_neq; lia).
  assert (VH : verify_header (se_details s) (mkEncoded v sd rc m) = Ok tt).
  { assert (TV : forall t, t = 0 \/ 256 <= t -> exists u, tag_verify t = Ok u).
    { intros t [-> | L]; [now exists 0|]. unfold tag_verify. change INSTANCE_MIN_VALID with 256.
      assert (t <? 256 = false) as -> by (apply N.ltb_ge; lia). rewrite Bool.andb_false_r. eauto. }
    unfold verify_header. cbn [em_version em_sender em_receiver em_message].
    destruct (TV sd) as (u1 & E1); [lia|]. destruct (TV rc) as (u2 & E2); [destruct RC as [(_ & ?)|(-> & _)]; lia|].
    assert (sd =? 0 = false) as SZ by (apply N.eqb_neq; lia).
    destruct V as [-> | ->]; rewrite E1, E2; cbn [bind]; rewrite SZ;
      (destruct RC as [(-> & L) | (-> & M)];
       [assert (de_tag (se_details s) =? 0 = false) as -> by (apply N.eqb_neq; lia); rewrite N.eqb_refl; reflexivity
       |destruct m; try easy; reflexivity]). }
  rewrite VH.
  assert (PO : (version_eqb v V3 && negb (allow_v3 (de_policy (se_details s))))
           || (version_eqb v V4 && negb (allow_v4 (de_policy (se_details s)))) = false).
  { destruct V as [-> | ->]; cbn [allowed] in AL; rewrite AL; reflexivity. }
  rewrite PO. reflexivity.
Qed.
End WithCrypto.
