(* What both users see under an active network, from the establishment of the conversation on. *)
From Verif Require Import Base BaseLemmas Types Crypto CryptoProofs Encoding EncodingProofs ClientProfile Messages MessagesProofs Fragment
  KeyManager KeyManagerProofs DataV3 SpecData3 DataV3Proofs History3Proofs Conv3Proofs Ratchet DataV4 SpecCurve SpecData4 DataV4Proofs
  History4Proofs Conv4Proofs AKE SpecAKE DAKE SMP SMP4
  Protocol Session SpecWire SpecSession SessionProofs SessionPartyProofs SessionInvProofs SessionSendProofs SessionRecvProofs SessionLemmas
  SpecNet NetProofs NetAKEProofs NetDAKEProofs Net3Proofs Net4Proofs NetLemmas Net4Lemmas SpecFollow FollowProofs FollowLemmas VerifyProofs
  SpecTexts Texts3Proofs Texts4Proofs.
From Coq Require Import Lia ZifyN ZifyNat Sorting.Sorted.
Local Open Scope N_scope.
Notation Sends := SpecFollow.Sends.

(** ** Lists *)

Lemma forall2_in_l {A B} (R : A -> B -> Prop) g l x : Forall2 R g l -> In x g -> exists y, In y l /\ R x y.
Proof.
  induction 1 as [|a b g l E F IH]; intros I; [contradiction|]. destruct I as [->|I]; [eauto with datatypes|].
  destruct (IH I) as (y & Y & Z). eauto with datatypes.
Qed.
Lemma forall2_in_r {A B} (R : A -> B -> Prop) g l y : Forall2 R g l -> In y l -> exists x, In x g /\ R x y.
Proof.
  induction 1 as [|a b g l E F IH]; intros I; [contradiction|]. destruct I as [->|I]; [eauto with datatypes|].
  destruct (IH I) as (x & Y & Z). eauto with datatypes.
Qed.

Lemma selection_app {A} (l1 l2 : list A) m1 m2 : selection l1 m1 -> selection l2 m2 -> selection (l1 ++ l2) (m1 ++ m2).
Proof.
  intros S1 S2. induction S1 as [m|x l m _ IH|x l m _ IH]; cbn [app]; [|now constructor|now constructor].
  induction m as [|x m IH]; [assumption|]. now constructor.
Qed.
Lemma selection_in {A} (l m : list A) x : selection l m -> In x l -> In x m.
Proof. induction 1 as [m|y l m _ IH|y l m _ IH]; cbn [In]; tauto. Qed.
Lemma selection_map {A B} (f : A -> B) l m : selection l m -> selection (map f l) (map f m).
Proof. induction 1; cbn [map]; now constructor. Qed.
Lemma selection_self {A} (l : list A) : selection l l.
Proof. induction l; now constructor. Qed.
Lemma selection_cons_inv {A} (x : A) l m : selection (x :: l) m -> exists m1 m2, m = m1 ++ x :: m2 /\ selection l m2.
Proof.
  intros S. remember (x :: l) as k eqn:K. revert x l K. induction S as [m|y k m S IH|y k m S IH]; intros x l K; [discriminate| |].
  - injection K as -> ->. exists [], m. auto.
  - destruct (IH _ _ K) as (m1 & m2 & -> & S2). exists (y :: m1), m2. auto.
Qed.

(* elements of one sorted list in another one *)
Lemma sorted_selection {A} (R : A -> A -> Prop) : (forall x, ~ R x x) -> (forall x y z, R x y -> R y z -> R x z) ->
  forall m l, StronglySorted R l -> StronglySorted R m -> (forall x, In x l -> In x m) -> selection l m.
Proof.
  intros IR TR. induction m as [|y m IH]; intros l SL SM IN.
  - destruct l as [|x l]; [constructor|]. now contradiction (IN x (or_introl eq_refl)).
  - destruct l as [|x l]; [constructor|]. inversion SM as [|y' m' SM' FM]; subst. inversion SL as [|x' l' SL' FL]; subst.
    rewrite Forall_forall in FM, FL. destruct (IN x (or_introl eq_refl)) as [->|IX].
    + constructor. apply IH; try assumption. intros z IZ. destruct (IN z (or_intror IZ)) as [<-|I]; [|assumption].
      now contradiction (IR _ (FL _ IZ)).
    + apply sel_skip. apply IH; try assumption. intros z IZ. destruct (IN z IZ) as [<-|I]; [|assumption].
      exfalso. specialize (FM _ IX). destruct IZ as [->|IZ]; [now apply IR in FM|]. specialize (FL _ IZ). eapply IR, TR; eassumption.
Qed.

Section WithCrypto.
Context (C : Crypto).

(** ** Accounts *)

Lemma account_exists d h0 s h s' t : history C d h0 s -> enabled d -> run C s h s' -> status_of s' t = Encrypted ->
  Forall (fun ev => ~ started_with t ev) h -> exists gs, account C t s h s' gs.
Proof.
  intros H EN R SE NS. apply history_inv in H. destruct H as [SI <-].
  destruct (run_steps C _ _ _ _ R SI EN SE NS) as (gs & F & ST). exists gs. repeat split; assumption.
Qed.

(* the texts that the user was shown, with the messages that carried them *)
Lemma shown_list d t h gs : Forall2 (did_in C d t) h gs -> exists l : list (encoded_message * bytes * bytes),
  map snd l = texts_shown t h /\ selection (map (fun x => Reads (fst (fst x)) (snd (fst x))) l) (concat gs) /\
  Forall (fun x => exists tlvs, shows (snd (fst x)) (snd x) tlvs /\ existsb (smp_record (data_version (em_message (fst (fst x))))) tlvs = false) l /\
  (forall ev p c tlvs, In ev h -> ev_op ev = OpReceive p -> ev_result ev = Ok (AnMessage (UMConfidential t c tlvs)) ->
     exists em text, In (em, text, c) l /\ shows text c tlvs).
Proof.
  induction 1 as [|ev g h gs E F (l & L1 & L2 & L3 & L4)].
  - exists []. repeat split; try constructor. intros ? ? ? ? [].
  - destruct (match ev_op ev, ev_result ev with OpReceive _, Ok (AnMessage (UMConfidential u _ _)) => u =? t | _, _ => false end) eqn:B.
    + destruct (ev_op ev) as [p| | | | | | |] eqn:O; try discriminate B.
      destruct (ev_result ev) as [[[| | | | | |u c tlvs| | |]| |]| |] eqn:RS; try discriminate B.
      apply N.eqb_eq in B. subst u. unfold did_in in E. rewrite O, RS in E. destruct E as [_ E].
      destruct (E c tlvs eq_refl) as (em & text & -> & SH & NX). exists ((em, text, c) :: l).
      cbn [map texts_shown concat]. rewrite O, RS, N.eqb_refl, L1. split; [reflexivity|]. split; [now apply (sel_take _ _ _)|].
      split; [constructor; [eauto|assumption]|]. intros ev' p' c' tlvs' [<-|I] O' RS'.
      * assert (c' = c /\ tlvs' = tlvs) as [-> ->] by (rewrite RS in RS'; injection RS'; auto). exists em, text. split; [now left|assumption].
      * destruct (L4 _ _ _ _ I O' RS') as (em' & text' & I' & S'). exists em', text'. split; [now right|assumption].
    + exists l. assert (T : texts_shown t (ev :: h) = texts_shown t h).
      { cbn [texts_shown]. destruct (ev_op ev); try reflexivity. destruct (ev_result ev) as [[[]| |]| |]; try reflexivity. now rewrite B. }
      rewrite T. split; [assumption|]. split; [|split; [assumption|]].
      * cbn [concat]. apply (selection_app []); [constructor|assumption].
      * intros ev' p c tlvs [<-|I] O RS; [|eauto]. rewrite O, RS, N.eqb_refl in B. discriminate.
Qed.

(* the texts that the user sent, with the messages that carried them; everything else was for the verification *)
Lemma sent_list d t h gs : Forall2 (did_in C d t) h gs -> exists l : list (encoded_type * bytes),
  map snd l = texts_sent t h /\ selection (map (fun x => Sends (fst x) (snd x)) l) (concat gs) /\
  Forall (fun x => ~ In x00 (snd x)) l /\
  (forall m text, In (Sends m text) (concat gs) -> In (m, text) l \/ only_smp (data_version m) text).
Proof.
  induction 1 as [|ev g h gs E F (l & L1 & L2 & L3 & L4)].
  - exists []. split; [reflexivity|]. split; [constructor|]. split; [constructor|]. intros ? ? [].
  - assert (K : forall m text, In (Sends m text) g -> In (Sends m text) (concat (g :: gs))).
    { intros. cbn [concat]. apply in_or_app. now left. }
    destruct (match ev_op ev, ev_result ev with OpSend u _, Ok (AnPayloads _) => u =? t | _, _ => false end) eqn:B.
    + destruct (ev_op ev) as [|u c| | | | | |] eqn:O; try discriminate B.
      destruct (ev_result ev) as [[?|ps|]| |] eqn:RS; try discriminate B.
      apply N.eqb_eq in B. subst u. unfold did_in in E. rewrite O, RS in E. destruct E as [(N & _)|(_ & m & v & e & -> & _)]; [congruence|].
      exists ((m, without_nul c) :: l).
      cbn [map texts_sent concat]. rewrite O, RS, N.eqb_refl, L1. split; [reflexivity|]. split; [now apply (sel_take _ _ _)|].
      split; [constructor; [apply without_nul_not_in|assumption]|]. intros m' text' [I|I].
      * injection I as <- <-. left. now left.
      * destruct (L4 _ _ I) as [J|J]; [left; now right|now right].
    + exists l. assert (T : texts_sent t (ev :: h) = texts_sent t h).
      { cbn [texts_sent]. destruct (ev_op ev); try reflexivity. destruct (ev_result ev) as [[]| |]; try reflexivity. now rewrite B. }
      rewrite T. split; [assumption|]. split; [cbn [concat]; apply (selection_app []); [constructor|assumption]|].
      split; [assumption|]. intros m text I. cbn [concat] in I. apply in_app_or in I. destruct I as [I|I]; [right|now apply L4].
      unfold did_in in E. destruct (ev_op ev) as [p|u c| | | | | |].
      all: try (subst g; contradiction).
      * destruct E as [[-> |(em & _ & _ & [-> |(text' & [-> |(m' & r & v & e & -> & S & _)])])] _]; [contradiction| | |].
        -- destruct I as [I|[]]; discriminate.
        -- destruct I as [I|[]]; discriminate.
        -- destruct I as [I|[I|[]]]; [discriminate|]. injection I as <- <-. assumption.
      * destruct (ev_result ev) as [[?|ps|]| |]; try (subst g; contradiction).
        destruct E as [(_ & ->)|(-> & _)]; [contradiction|]. now rewrite N.eqb_refl in B.
      * destruct E as [-> |(_ & m' & r & v & e & -> & S & _)]; [contradiction|]. destruct I as [I|[]]. injection I as <- <-. assumption.
      * destruct E as [-> |(_ & m' & r & v & e & -> & S & _)]; [contradiction|]. destruct I as [I|[]]. injection I as <- <-. assumption.
Qed.

(** ** From messages to what the users see *)

Lemma shown_plain text c tlvs : ~ In x00 text -> shows text c tlvs -> c = text /\ tlvs = [].
Proof.
  intros NI (rs & (_ & _ & [(-> & ->)| ->]) & _ & ->); [auto|]. exfalso. apply NI, in_or_app. right. now left.
Qed.
Lemma smp_not_shown v text c tlvs : only_smp v text -> shows text c tlvs -> existsb (smp_record v) tlvs = false -> False.
Proof.
  intros (r & SR & TR & ->) SH X. apply parse_shows in SH. rewrite parse_record in SH; [|assumption|].
  - injection SH as <- <-. cbn [existsb] in X. rewrite SR in X. discriminate.
  - unfold smp_record in SR. apply Bool.andb_true_iff in SR. destruct SR as [SR _]. now apply N.leb_le in SR.
Qed.
Lemma same_version m m' : same_data m m' -> data_version m = data_version m'.
Proof. destruct m, m'; try contradiction; reflexivity. Qed.

(* every text shown was sent in the same message *)
Lemma shown_sent (d d' : details) t t' h h' gs gs' : Forall2 (did_in C d t) h gs -> Forall2 (did_in C d' t') h' gs' ->
  read_as_written (concat gs') (concat gs) ->
  bare_texts t h /\
  exists l l', map snd l = texts_shown t h /\ map snd l' = texts_sent t' h' /\
    selection (map (fun x => Reads (fst x) (snd x)) l) (concat gs) /\ selection (map (fun x => Sends (fst x) (snd x)) l') (concat gs') /\
    Forall (fun x => exists m, In (m, snd x) l' /\ same_data m (em_message (fst x))) l.
Proof.
  intros F F' RW. apply shown_list in F. apply sent_list in F'. destruct F as (l & L1 & L2 & L3 & L4). destruct F' as (l' & L1' & L2' & L3' & L4').
  assert (K : forall em text c, In (em, text, c) l -> c = text /\ (forall tlvs, shows text c tlvs -> tlvs = []) /\
    exists m, In (m, text) l' /\ same_data m (em_message em)).
  { intros em text c I. rewrite Forall_forall in L3. destruct (L3 _ I) as (tlvs & SH & NX). cbn [fst snd] in SH, NX.
    assert (IR : In (Reads em text) (concat gs)).
    { apply (selection_in _ _ _ L2). apply in_map_iff. exists (em, text, c). auto. }
    destruct (RW _ _ IR) as [(m & IS & SD) _]. destruct (L4' _ _ IS) as [IL|OS].
    - rewrite Forall_forall in L3'. pose proof (L3' _ IL) as NI. cbn [snd] in NI.
      split; [now apply (shown_plain _ _ tlvs)|]. split; [|eauto]. intros x SX. now apply (shown_plain _ _ _ NI) in SX.
    - exfalso. rewrite (same_version _ _ SD) in OS. eapply smp_not_shown; eassumption. }
  split.
  - intros ev p c x I O R. destruct (L4 _ _ _ _ I O R) as (em & text & IL & SH). apply K in IL. destruct IL as (_ & KT & _). auto.
  - exists (map fst l), l'. split; [|split; [assumption|split; [|split; [assumption|]]]].
    + rewrite <- L1, map_map. apply map_ext_in. intros [[em text] c] I. cbn [fst snd]. symmetry. now apply (K em text c).
    + rewrite map_map. exact L2.
    + apply Forall_forall. intros [em text] I. apply in_map_iff in I. destruct I as ([[em' text'] c] & E & I). cbn [fst snd] in *. injection E as -> ->.
      now apply (K em text c).
Qed.

(** ** OTRv3 *)

Lemma genuine_is3 gS gR lS lR : Forall2 is3 gS lS -> Forall2 is3 gR lR -> genuine gS gR -> genuine3 lS lR.
Proof.
  intros FS FR G m auth text I. destruct (forall2_in_r _ _ _ _ FR I) as (x & IX & X). destruct x as [mx tx|em tx|em]; cbn in X; [destruct mx; contradiction| |contradiction].
  destruct X as (EM & _ & <-). destruct (G _ _ IX) as (m' & t' & IS & SD). rewrite EM in SD.
  destruct m'; try contradiction. destruct (forall2_in_l _ _ _ _ FS IS) as (y & IY & Y). destruct y; try contradiction. destruct Y as [-> ->].
  eauto.
Qed.
Lemma read_is3 gS gR lS lR : Forall2 is3 gS lS -> Forall2 is3 gR lR -> genuine gS gR ->
  (forall m auth text m' text', In (Got3 m auth (Some text)) lR -> In (Sent3 m' text') lS -> same_data3 m' m -> text = text') ->
  read_as_written gS gR.
Proof.
  intros FS FR G A em text I.
  assert (K : forall m text', In (Sends m text') gS -> same_data m (em_message em) -> text' = text).
  { intros m text' IS SD. destruct (forall2_in_l _ _ _ _ FR I) as (y & IY & Y). destruct y as [|m' auth [tx|]]; try contradiction.
    destruct Y as (EM & _ & ->). rewrite EM in SD. destruct m; try contradiction.
    destruct (forall2_in_l _ _ _ _ FS IS) as (z & IZ & Z). destruct z; try contradiction. destruct Z as [-> ->].
    symmetry. eapply A; eassumption. }
  split; [|exact K]. destruct (G _ _ I) as (m & text' & IS & SD). exists m. now rewrite <- (K _ _ IS SD).
Qed.

Lemma start3_swap a b : start3 C (mkConv3 a b [] []) -> start3 C (mkConv3 b a [] []).
Proof.
  intros (xa & xb & ra0 & ra1 & rb0 & rb1 & EA & EB & _). exists xb, xa, rb0, rb1, ra0, ra1. repeat split; assumption.
Qed.

Lemma net3_read_steps da db sa sb x gA stA gB stB : start_net3 C da db sa sb x ->
  steps C (state_of (x_sa2 x) (de_tag db)) gA stA -> steps C (state_of (x_sb3 x) (de_tag da)) gB stB ->
  genuine gA gB -> genuine gB gA -> read_as_written gA gB /\ read_as_written gB gA.
Proof.
  intros S TA TB GA GB.
  assert (PZ : c_dh_p C <> 0) by (destruct S as (_ & _ & _ & _ & _ & _ & _ & _ & (_ & P & _) & _); lia).
  apply net3_secured in S. destruct S as ((ka & kb & _ & _ & SEC) & _ & DA & DB).
  destruct SEC as [IA IB _ _ (ia & ib & kma & kmb & ssid & QA & QB & _ & _ & SA & SB & S0)]. rewrite DA, DB in *.
  unfold state_of in TA at 1. unfold state_of in TB at 1. rewrite QA, SA in TA. rewrite QB, SB in TB. unfold steps in TA, TB.
  destruct stA; try contradiction. destruct stB; try contradiction.
  destruct TA as (_ & _ & lA & FA & RA). destruct TB as (_ & _ & lB & FB & RB).
  pose proof (genuine_is3 _ _ _ _ FA FB GA) as G1. pose proof (genuine_is3 _ _ _ _ FB FA GB) as G2.
  split; (eapply read_is3; [eassumption|eassumption|assumption|]).
  - exact (texts3_agree C _ _ (mkConv3 kma kmb [] []) _ _ _ _ PZ S0 RA RB G1 G2).
  - exact (texts3_agree C _ _ (mkConv3 kmb kma [] []) _ _ _ _ PZ (start3_swap _ _ S0) RB RA G2 G1).
Qed.

Lemma net3_read da db sa sb x hA sA gA hB sB gB : start_net3 C da db sa sb x ->
  account C (de_tag db) (x_sa2 x) hA sA gA -> account C (de_tag da) (x_sb3 x) hB sB gB ->
  genuine (concat gA) (concat gB) -> genuine (concat gB) (concat gA) ->
  read_as_written (concat gA) (concat gB) /\ read_as_written (concat gB) (concat gA).
Proof. intros S (_ & _ & TA) (_ & _ & TB). eapply net3_read_steps; eassumption. Qed.

(** ** OTRv4 *)

Lemma genuine_is4 gS gR lS lR : Forall2 is4 gS lS -> Forall2 is4 gR lR -> genuine gS gR -> genuine4 lS lR.
Proof.
  intros FS FR G m auth text mk I. destruct (forall2_in_r _ _ _ _ FR I) as (x & IX & X). destruct x as [mx tx|em tx|em]; cbn in X; [destruct mx; contradiction| |contradiction].
  destruct X as (EM & _ & <-). destruct (G _ _ IX) as (m' & t' & IS & SD). rewrite EM in SD.
  destruct m'; try contradiction. destruct (forall2_in_l _ _ _ _ FS IS) as (y & IY & Y). destruct y; try contradiction. destruct Y as [-> ->].
  eauto.
Qed.
Lemma read_is4 gS gR lS lR : Forall2 is4 gS lS -> Forall2 is4 gR lR -> genuine gS gR ->
  (forall m auth text mk m' text', In (Took4 m auth text mk) lR -> In (Sent4 m' text') lS -> same_data4 m' m -> text = text') ->
  read_as_written gS gR.
Proof.
  intros FS FR G A em text I.
  assert (K : forall m text', In (Sends m text') gS -> same_data m (em_message em) -> text' = text).
  { intros m text' IS SD. destruct (forall2_in_l _ _ _ _ FR I) as (y & IY & Y). destruct y as [|m' auth tx mk|]; try contradiction.
    destruct Y as (EM & _ & ->). rewrite EM in SD. destruct m; try contradiction.
    destruct (forall2_in_l _ _ _ _ FS IS) as (z & IZ & Z). destruct z; try contradiction. destruct Z as [-> ->].
    symmetry. eapply A; eassumption. }
  split; [|exact K]. destruct (G _ _ I) as (m & text' & IS & SD). exists m. now rewrite <- (K _ _ IS SD).
Qed.

Lemma net4_runs_steps da db sa sb x gA stA gB stB : start_net4 C da db sa sb x ->
  steps C (state_of (x_sa2 x) (de_tag db)) gA stA -> steps C (state_of (x_sb3 x) (de_tag da)) gB stB ->
  exists s0 lA A lB B, start4 C s0 /\ Forall2 is4 gA lA /\ Forall2 is4 gB lB /\
    run4 C (de_tag da) (de_tag db) (cw_a s0) lA A /\ run4 C (de_tag db) (de_tag da) (cw_b s0) lB B.
Proof.
  intros S TA TB.
  apply net4_secured in S. destruct S as ((SEC & _) & DA & DB).
  destruct SEC as [IA IB _ _ (ia & ib & dra & drb & fa & fb & ssid & QA & QB & _ & _ & SA & SB & S0)]. rewrite DA, DB in *.
  unfold state_of in TA at 1. unfold state_of in TB at 1. rewrite QA, SA in TA. rewrite QB, SB in TB. unfold steps in TA, TB.
  destruct stA; try contradiction. destruct stB; try contradiction.
  destruct TA as (_ & _ & lA & FA & RA). destruct TB as (_ & _ & lB & FB & RB).
  exists (mkConv4 dra drb [] []), lA. eexists. exists lB. eexists. repeat split; eassumption.
Qed.
Lemma net4_runs da db sa sb x hA sA gA hB sB gB : start_net4 C da db sa sb x ->
  account C (de_tag db) (x_sa2 x) hA sA gA -> account C (de_tag da) (x_sb3 x) hB sB gB ->
  exists s0 lA A lB B, start4 C s0 /\ Forall2 is4 (concat gA) lA /\ Forall2 is4 (concat gB) lB /\
    run4 C (de_tag da) (de_tag db) (cw_a s0) lA A /\ run4 C (de_tag db) (de_tag da) (cw_b s0) lB B.
Proof. intros S (_ & _ & TA) (_ & _ & TB). eapply net4_runs_steps; eassumption. Qed.
Lemma net4_read_steps da db sa sb x gA stA gB stB : start_net4 C da db sa sb x ->
  steps C (state_of (x_sa2 x) (de_tag db)) gA stA -> steps C (state_of (x_sb3 x) (de_tag da)) gB stB ->
  genuine gA gB -> genuine gB gA -> read_as_written gA gB /\ read_as_written gB gA.
Proof.
  intros S TA TB GA GB. assert (GO : groups_ok4 C) by apply S.
  destruct (net4_runs_steps _ _ _ _ _ _ _ _ _ S TA TB) as (s0 & lA & A & lB & B & S0 & FA & FB & RA & RB).
  pose proof (genuine_is4 _ _ _ _ FA FB GA) as G1. pose proof (genuine_is4 _ _ _ _ FB FA GB) as G2.
  destruct (texts4_agree C GO _ _ _ _ _ _ _ S0 RA RB G1 G2) as [T1 T2].
  split; (eapply read_is4; [eassumption|eassumption|assumption|assumption]).
Qed.

Lemma net4_read da db sa sb x hA sA gA hB sB gB : start_net4 C da db sa sb x ->
  account C (de_tag db) (x_sa2 x) hA sA gA -> account C (de_tag da) (x_sb3 x) hB sB gB ->
  genuine (concat gA) (concat gB) -> genuine (concat gB) (concat gA) ->
  read_as_written (concat gA) (concat gB) /\ read_as_written (concat gB) (concat gA).
Proof. intros S (_ & _ & TA) (_ & _ & TB). eapply net4_read_steps; eassumption. Qed.

(* positions *)
Definition position (m : encoded_type) : N * N := match m with MData4 m => (d4_i m, d4_j m) | _ => (0, 0) end.
Definition earlier (p q : N * N) : Prop := fst p < fst q \/ (fst p = fst q /\ snd p < snd q).
Lemma took4_order our their d0 h d : run4 C our their d0 h d ->
  forall h1 m1 a1 t1 k1 h2 m2 a2 t2 k2 h3, h = h1 ++ Took4 m1 a1 t1 k1 :: h2 ++ Took4 m2 a2 t2 k2 :: h3 -> before4 m1 m2.
Proof.
  intros R h1 m1 a1 t1 k1 h2 m2 a2 t2 k2 h3 ->.
  replace (h1 ++ Took4 m1 a1 t1 k1 :: h2 ++ Took4 m2 a2 t2 k2 :: h3)
    with ((h1 ++ [Took4 m1 a1 t1 k1]) ++ h2 ++ Took4 m2 a2 t2 k2 :: h3) in R by now rewrite <- app_assoc.
  apply run4_split in R. destruct R as (d1 & R1 & R2). apply run4_snoc_inv in R1. destruct R1 as (dm & _ & now & E & _).
  apply behind_self in E. eapply behind_run; [exact R2|exact E|]. apply in_or_app. right. left. reflexivity.
Qed.
Lemma sent4_order our their d0 h d : run4 C our their d0 h d ->
  forall h1 m1 t1 h2 m2 t2 h3, h = h1 ++ Sent4 m1 t1 :: h2 ++ Sent4 m2 t2 :: h3 -> before4 m1 m2.
Proof.
  intros R h1 m1 t1 h2 m2 t2 h3 ->.
  replace (h1 ++ Sent4 m1 t1 :: h2 ++ Sent4 m2 t2 :: h3) with ((h1 ++ [Sent4 m1 t1]) ++ h2 ++ Sent4 m2 t2 :: h3) in R by now rewrite <- app_assoc.
  apply run4_split in R. destruct R as (d1 & R1 & R2). apply run4_snoc_inv in R1. destruct R1 as (dm & _ & ig & rnd & E).
  apply passed_send in E. destruct E as [P _].
  eapply passed_run; [exact R2|exact P|]. apply in_or_app. right. left. reflexivity.
Qed.

Lemma before_earlier m1 m2 : before4 m1 m2 -> earlier (position (MData4 m1)) (position (MData4 m2)).
Proof. unfold before4, earlier, position. cbn [fst snd]. tauto. Qed.

Lemma selected_pairs {A B} (f : A -> B) (P : B -> B -> Prop) l g : selection (map f l) g ->
  (forall g1 x g2 y g3, g = g1 ++ x :: g2 ++ y :: g3 -> P x y) -> StronglySorted (fun x y => P (f x) (f y)) l.
Proof.
  revert g. induction l as [|x l IH]; intros g S H; [constructor|]. cbn [map] in S. apply selection_cons_inv in S.
  destruct S as (g1 & g2 & -> & S). constructor.
  - apply (IH g2 S). intros k1 a k2 b k3 ->. apply (H (g1 ++ f x :: k1) a k2 b k3). now rewrite <- app_assoc.
  - apply Forall_forall. intros y IY. apply (in_map f) in IY. apply (selection_in _ _ _ S) in IY.
    apply in_split in IY. destruct IY as (k1 & k2 & ->). now apply (H g1 (f x) k1 (f y) k2).
Qed.

(* elements of sorted lists, up to a map *)
Lemma sorted_map {A B} (f : A -> B) (R : B -> B -> Prop) l : StronglySorted (fun x y => R (f x) (f y)) l -> StronglySorted R (map f l).
Proof.
  induction 1 as [|x l S IH F]; cbn [map]; [constructor|]. constructor; [assumption|]. apply Forall_map. exact F.
Qed.

Lemma net4_selection our their d0 l d our' their' d0' l' d' gS gR x y : run4 C our their d0 l d -> run4 C our' their' d0' l' d' ->
  Forall2 is4 gS l -> Forall2 is4 gR l' ->
  selection (map (fun z => Reads (fst z) (snd z)) x) gR -> selection (map (fun z => Sends (fst z) (snd z)) y) gS ->
  Forall (fun z => exists m, In (m, snd z) y /\ same_data m (em_message (fst z))) x -> selection (map snd x) (map snd y).
Proof.
  intros RS RR FS FR SX SY F.
  assert (SR : StronglySorted (fun a b : encoded_message * bytes => earlier (position (em_message (fst a))) (position (em_message (fst b)))) x).
  { refine (selected_pairs (fun z => Reads (fst z) (snd z)) (fun a b => match a, b with Reads e1 _, Reads e2 _ => earlier (position (em_message e1)) (position (em_message e2)) | _, _ => True end) _ _ SX _).
    intros g1 a g2 b g3 ->. destruct a as [|e1 t1|]; [exact I| |exact I]. destruct b as [|e2 t2|]; [exact I| |exact I].
    apply forall2_mid in FR. destruct FR as (l1 & y1 & l2 & -> & _ & E1 & FR).
    apply forall2_mid in FR. destruct FR as (l3 & y2 & l4 & -> & _ & E2 & _).
    destruct y1; try contradiction. destruct y2; try contradiction. destruct E1 as (-> & _). destruct E2 as (-> & _).
    apply before_earlier. eapply took4_order; [exact RR|reflexivity]. }
  assert (SS : StronglySorted (fun a b : encoded_type * bytes => earlier (position (fst a)) (position (fst b))) y).
  { refine (selected_pairs (fun z => Sends (fst z) (snd z)) (fun a b => match a, b with Sends e1 _, Sends e2 _ => earlier (position e1) (position e2) | _, _ => True end) _ _ SY _).
    intros g1 a g2 b g3 ->. destruct a as [e1 t1| |]; [|exact I|exact I]. destruct b as [e2 t2| |]; [|exact I|exact I].
    apply forall2_mid in FS. destruct FS as (l1 & y1 & l2 & -> & _ & E1 & FS).
    apply forall2_mid in FS. destruct FS as (l3 & y2 & l4 & -> & _ & E2 & _).
    destruct e1; try contradiction. destruct y1; try contradiction. destruct e2; try contradiction. destruct y2; try contradiction.
    destruct E1 as (-> & _). destruct E2 as (-> & _).
    apply before_earlier. eapply sent4_order; [exact RS|reflexivity]. }
  set (fx := fun z : encoded_message * bytes => (position (em_message (fst z)), snd z)).
  set (fy := fun z : encoded_type * bytes => (position (fst z), snd z)).
  assert (SEL : selection (map fx x) (map fy y)).
  { apply (sorted_selection (fun a b : N * N * bytes => earlier (fst a) (fst b))).
    - intros [[i j] t]. unfold earlier. cbn [fst snd]. lia.
    - intros [[i j] t] [[i2 j2] t2] [[i3 j3] t3]. unfold earlier. cbn [fst snd]. lia.
    - apply sorted_map. exact SR.
    - apply sorted_map. exact SS.
    - intros z IZ. apply in_map_iff in IZ. destruct IZ as ([em text] & <- & IZ). rewrite Forall_forall in F.
      destruct (F _ IZ) as (m & IM & SD). apply in_map_iff. exists (m, text). split; [|assumption]. unfold fx, fy. cbn [fst snd]. f_equal.
      cbn [fst] in SD.
      pose proof (selection_in _ _ (Reads em text) SX (in_map (fun z => Reads (fst z) (snd z)) _ _ IZ)) as IR.
      destruct (forall2_in_l _ _ _ _ FR IR) as (k & _ & K). destruct k; try contradiction. destruct K as (K & _). rewrite K in *.
      destruct m; try contradiction. destruct SD as (I1 & I2 & _). cbn [position]. now rewrite I1, I2. }
  apply (selection_map snd) in SEL. rewrite !map_map in SEL. exact SEL.
Qed.

(** ** The conversation *)

Lemma shown3 da db sa sb x hA sA gA hB sB gB : start_net3 C da db sa sb x ->
  account C (de_tag db) (x_sa2 x) hA sA gA -> account C (de_tag da) (x_sb3 x) hB sB gB ->
  genuine (concat gA) (concat gB) -> genuine (concat gB) (concat gA) ->
  (bare_texts (de_tag da) hB /\ incl (texts_shown (de_tag da) hB) (texts_sent (de_tag db) hA)) /\
  (bare_texts (de_tag db) hA /\ incl (texts_shown (de_tag db) hA) (texts_sent (de_tag da) hB)).
Proof.
  intros S TA TB GA GB. destruct (net3_read _ _ _ _ _ _ _ _ _ _ _ S TA TB GA GB) as [R1 R2].
  assert (K : forall l l', Forall (fun x : encoded_message * bytes => exists m : encoded_type, In (m, snd x) l' /\ same_data m (em_message (fst x))) l ->
    incl (map snd l) (map snd l')).
  { intros l l' F c I. apply in_map_iff in I. destruct I as (z & <- & I). rewrite Forall_forall in F.
    destruct (F _ I) as (m & IM & _). apply in_map_iff. exists (m, snd z). auto. }
  split.
  - destruct (shown_sent _ _ _ _ _ _ _ _ (proj1 (proj2 TB)) (proj1 (proj2 TA)) R1) as (BT & l & l' & <- & <- & _ & _ & F). auto.
  - destruct (shown_sent _ _ _ _ _ _ _ _ (proj1 (proj2 TA)) (proj1 (proj2 TB)) R2) as (BT & l & l' & <- & <- & _ & _ & F). auto.
Qed.
Lemma shown4 da db sa sb x hA sA gA hB sB gB : start_net4 C da db sa sb x ->
  account C (de_tag db) (x_sa2 x) hA sA gA -> account C (de_tag da) (x_sb3 x) hB sB gB ->
  genuine (concat gA) (concat gB) -> genuine (concat gB) (concat gA) ->
  (bare_texts (de_tag da) hB /\ selection (texts_shown (de_tag da) hB) (texts_sent (de_tag db) hA)) /\
  (bare_texts (de_tag db) hA /\ selection (texts_shown (de_tag db) hA) (texts_sent (de_tag da) hB)).
Proof.
  intros S TA TB GA GB. destruct (net4_read _ _ _ _ _ _ _ _ _ _ _ S TA TB GA GB) as [R1 R2].
  destruct (net4_runs _ _ _ _ _ _ _ _ _ _ _ S TA TB) as (s0 & lA & A & lB & B & S0 & FA & FB & RA & RB).
  split.
  - destruct (shown_sent _ _ _ _ _ _ _ _ (proj1 (proj2 TB)) (proj1 (proj2 TA)) R1) as (BT & l & l' & <- & <- & L1 & L2 & F).
    split; [assumption|]. exact (net4_selection _ _ _ _ _ _ _ _ _ _ _ _ _ _ RA RB FA FB L1 L2 F).
  - destruct (shown_sent _ _ _ _ _ _ _ _ (proj1 (proj2 TA)) (proj1 (proj2 TB)) R2) as (BT & l & l' & <- & <- & L1 & L2 & F).
    split; [assumption|]. exact (net4_selection _ _ _ _ _ _ _ _ _ _ _ _ _ _ RB RA FB FA L1 L2 F).
Qed.
End WithCrypto.
