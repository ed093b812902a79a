(* A message in parts is received like the message in one piece. *)
From Verif Require Import Base BaseLemmas Types Crypto Encoding Messages Fragment Protocol Session SpecWire SpecFragment FragmentProofs AssemblerProofs FragmentLemmas
  SpecSession SessionProofs SessionInvProofs SessionSendProofs SessionHistProofs StartProofs NetProofs FollowLemmas SpecParts PartsProofs PartsLemmas.
From Coq Require Import Lia ZifyN ZifyNat.
Local Open Scope N_scope.
Import SpecSession.

(** ** Running an assembler *)

Lemma run_at {S} (step : S -> fragment -> S * asm_result) st l1 g l2 st' os :
  SpecFragment.run step st (l1 ++ g :: l2) = (st', os) -> nth_error os (length l1) = Some (snd (step (fst (SpecFragment.run step st l1)) g)).
Proof.
  rewrite AssemblerProofs.run_app. destruct (SpecFragment.run step st l1) as [st1 o1] eqn:R1. apply run_length in R1. cbn [SpecFragment.run fst].
  destruct (step st1 g) as [st2 o]. destruct (SpecFragment.run step st2 l2) as [st3 o3]. intros H. injection H as <- <-.
  rewrite <- R1, nth_error_app2 by lia. now rewrite PeanoNat.Nat.sub_diag.
Qed.
Lemma run_one {S} (step : S -> fragment -> S * asm_result) st l g st1 os1 : SpecFragment.run step st l = (st1, os1) ->
  SpecFragment.run step st (l ++ [g]) = (fst (step st1 g), os1 ++ [snd (step st1 g)]).
Proof. intros R. rewrite AssemblerProofs.run_app, R. cbn [SpecFragment.run]. now destruct (step st1 g). Qed.
Lemma run_is_history tr st l : forall st' os, SpecFragment.history tr st -> SpecFragment.run unordered_assemble st l = (st', os) -> ~ In AsmPanic os ->
  exists tr', SpecFragment.history (tr ++ tr') st' /\ seen tr' = l.
Proof.
  induction l as [|g l IH] using rev_ind; intros st' os H R NP.
  - cbn in R. injection R as <- <-. exists []. rewrite app_nil_r. auto.
  - destruct (SpecFragment.run unordered_assemble st l) as [st1 os1] eqn:R1. rewrite (run_one _ _ _ g _ _ R1) in R. injection R as <- <-.
    destruct (IH st1 os1 H eq_refl) as (tr' & H' & S).
    { intros X. apply NP. apply in_or_app. now left. }
    destruct (unordered_assemble st1 g) as [st2 o] eqn:U. exists (tr' ++ [(g, o)]). cbn [fst snd] in *. split.
    + rewrite app_assoc. apply (history_step _ _ _ _ _ H' U). intros ->. apply NP. apply in_or_app. right. now left.
    + unfold seen in *. rewrite map_app, S. reflexivity.
Qed.

(** ** Parts that were received *)

Lemma parts_app d v t h1 h2 : parts_from d v t (h1 ++ h2) = parts_from d v t h1 ++ parts_from d v t h2.
Proof. apply flat_map_app. Qed.
Lemma parts_one d v t ev : parts_from d v t [ev] = match part_in d v t (ev_op ev) with Some f => [f] | None => [] end.
Proof. unfold parts_from, part_in. cbn [flat_map]. rewrite app_nil_r. destruct (ev_op ev); reflexivity. Qed.
Lemma parts_length d v t h : (length (parts_from d v t h) <= length h)%nat.
Proof.
  induction h as [|ev h IH]; [cbn; lia|]. change (ev :: h) with ([ev] ++ h). rewrite parts_app, parts_one, !app_length. cbn [length].
  destruct (part_in d v t (ev_op ev)); cbn [length]; lia.
Qed.
Lemma part_of_ok d v t q f : part_of d v t q = Some f -> match_fragment q = true /\ parse_fragment q = Ok (Some f) /\ verify_fragment f = true /\
  fr_sender f = t /\ fr_version f = v /\ (fr_receiver f = 0 \/ fr_receiver f = de_tag d).
Proof.
  unfold part_of. intros H. destruct (match_fragment q); [|discriminate]. destruct (parse_fragment q) as [[g|]|?|]; try discriminate.
  destruct (verify_fragment g && (fr_sender g =? t) && version_eqb (fr_version g) v && ((fr_receiver g =? 0) || (fr_receiver g =? de_tag d))) eqn:E; [|discriminate].
  injection H as <-. apply andb_true_iff in E. destruct E as [E R]. apply andb_true_iff in E. destruct E as [E V]. apply andb_true_iff in E. destruct E as [W S].
  split; [reflexivity|]. split; [reflexivity|]. split; [assumption|]. split; [now apply N.eqb_eq|].
  split; [|apply orb_true_iff in R; destruct R as [R|R]; apply N.eqb_eq in R; auto].
  destruct (fr_version g), v; cbn in V; try discriminate; try reflexivity. apply N.eqb_eq in V. now subst.
Qed.
Lemma part_of_is d v t q f : (v = V3 \/ v = V4) -> match_fragment q = true -> parse_fragment q = Ok (Some f) -> verify_fragment f = true ->
  fr_sender f = t -> fr_version f = v -> (fr_receiver f = 0 \/ fr_receiver f = de_tag d) -> part_of d v t q = Some f.
Proof.
  intros VV M P W S V R. unfold part_of. rewrite M, P, W, S, V, N.eqb_refl.
  assert (version_eqb v v = true) as -> by (destruct VV as [->| ->]; reflexivity).
  assert ((fr_receiver f =? 0) || (fr_receiver f =? de_tag d) = true) as ->; [|reflexivity].
  apply orb_true_iff. destruct R as [->| ->]; [left|right]; apply N.eqb_refl.
Qed.
Lemma parts_valid d v t h f : In f (parts_from d v t h) -> verify_fragment f = true.
Proof.
  unfold parts_from. rewrite in_flat_map. intros (ev & _ & I). destruct (ev_op ev); try contradiction.
  destruct (part_of d v t payload) as [g|] eqn:E; [|contradiction]. destruct I as [->|[]]. now apply part_of_ok in E.
Qed.

Section WithCrypto.
Context (C : Crypto).

Lemma run_keeps s0 h s : run C s0 h s -> sinv s0 -> sinv s /\ se_details s = se_details s0.
Proof. intros R. exact (run_inv C s0 h s R). Qed.

Lemma run_parts4 s0 h s t : run C s0 h s -> sinv s0 -> enabled (se_details s0) ->
  exists os, SpecFragment.run unordered_assemble (am_unordered (asm t s0)) (parts_from (se_details s0) V4 t h) = (am_unordered (asm t s), os) /\ ~ In AsmPanic os.
Proof.
  intros R SI EN. induction R as [|h s es o s' out r R IH H NP]; [exists []; split; [reflexivity|easy]|].
  destruct IH as (os & IH & NO). pose proof (run_keeps _ _ _ R SI) as [_ D]. rewrite <- D in EN.
  destruct (call_asm C _ _ _ _ _ _ t H NP EN) as (A & B & _). rewrite D in A, B. rewrite parts_app, parts_one. cbn [ev_op].
  destruct (part_in (se_details s0) V4 t o) as [f|]; cbn [step4] in A.
  - rewrite (run_one _ _ _ f _ _ IH). rewrite A. eexists. split; [reflexivity|]. intros X. apply in_app_or in X. destruct X as [X|[X|[]]]; [contradiction|].
    now apply (B f eq_refl).
  - rewrite app_nil_r, IH, A. exists os. auto.
Qed.
Lemma run_parts3 s0 h s t : run C s0 h s -> sinv s0 -> enabled (se_details s0) -> silent C t s0 h ->
  exists os, SpecFragment.run inorder_assemble (am_inorder (asm t s0)) (parts_from (se_details s0) V3 t h) = (am_inorder (asm t s), os).
Proof.
  intros R SI EN SL. induction R as [|h s es o s' out r R IH H NP]; [exists []; reflexivity|].
  destruct IH as (os & IH).
  { intros h' ev h'' s1 p em -> R1 O CA. apply (SL h' ev (h'' ++ [mkEvent o out r]) s1 p em); auto. now rewrite <- app_assoc. }
  pose proof (run_keeps _ _ _ R SI) as [_ D]. rewrite <- D in EN.
  destruct (call_asm C _ _ _ _ _ _ t H NP EN) as (_ & _ & A). rewrite D in A. rewrite parts_app, parts_one. cbn [ev_op].
  assert (N : forall p em, o = OpReceive p -> carries C s p em -> em_sender em <> t).
  { intros p em -> CA. exact (SL h (mkEvent (OpReceive p) out r) [] s p em eq_refl R eq_refl CA). }
  specialize (A N). destruct (part_in (se_details s0) V3 t o) as [f|]; cbn [step3] in A.
  - rewrite (run_one _ _ _ f _ _ IH). rewrite A. eexists. reflexivity.
  - rewrite app_nil_r, IH, A. exists os. reflexivity.
Qed.

(** ** One payload *)

Lemma kept_sinv s : sinv s -> kept_well s.
Proof. intros I. split; [exact (si_nodup _ I)|]. destruct (si_zero _ I) as (z & Z & _). rewrite Z. discriminate. Qed.

(* the payload that completes a message *)
Lemma completed_same e s v t q f p : sinv s -> enabled (se_details s) -> part_of (se_details s) v t q = Some f ->
  snd (assemble (asm t s) f) = AsmOk p -> match_fragment p = false ->
  forall s' out r s'' out'' r'', receive C e s q = (s', out, r) -> receive C e s p = (s'', out'', r'') ->
  r = r'' /\ (r <> Panic -> out = out'' /\ same_but_parts s'' s').
Proof.
  intros SI EN PO AS MP s' out r s'' out'' r'' Q P. apply part_of_ok in PO. destruct PO as (M & PF & VF & <- & _ & RC).
  unfold receive in Q, P. rewrite (enabled_not_disabled _ EN) in Q, P. rewrite MP in P. rewrite M, PF, VF in Q. cbn [negb] in Q.
  assert (RX : negb (fr_receiver f =? 0) && negb (fr_receiver f =? de_tag (se_details s)) = false).
  { destruct RC as [-> | ->]; [reflexivity|]. now rewrite N.eqb_refl, Bool.andb_false_r. }
  rewrite RX in Q. fold (asm (fr_sender f) s) in Q. destruct (assemble (asm (fr_sender f) s) f) as [a o]. cbn [snd] in AS. subst o. rewrite MP in Q.
  set (s1 := put s (fr_sender f) (set_assembler (entry (fr_sender f) (se_instances s)) a)) in *.
  assert (K : kept_well s) by now apply kept_sinv.
  pose proof (message_same C e s s1 p K (kept_put _ _ _ K) (sbp_store s (fr_sender f) a)) as (A & B & D). rewrite P in A, B, D.
  destruct (receive_message C e s1 p) as [[s2 o2] r2]. cbn [fst snd] in A, B, D. subst o2 r2.
  destruct r''; fin3 Q; (split; [reflexivity|]); auto. intros X. now elim X.
Qed.
(* a payload after which the message is not complete *)
Lemma waiting_same e s v t q f : enabled (se_details s) -> part_of (se_details s) v t q = Some f ->
  snd (assemble (asm t s) f) = AsmErr IncompleteResult \/ snd (assemble (asm t s) f) = AsmErr UnexpectedFragment ->
  forall s' out r, receive C e s q = (s', out, r) -> out = [] /\ r = Ok UMNone /\ same_but_parts s s'.
Proof.
  intros EN PO AS s' out r Q. apply part_of_ok in PO. destruct PO as (M & PF & VF & <- & _ & RC).
  unfold receive in Q. rewrite (enabled_not_disabled _ EN), M, PF, VF in Q. cbn [negb] in Q.
  assert (RX : negb (fr_receiver f =? 0) && negb (fr_receiver f =? de_tag (se_details s)) = false).
  { destruct RC as [-> | ->]; [reflexivity|]. now rewrite N.eqb_refl, Bool.andb_false_r. }
  rewrite RX in Q. fold (asm (fr_sender f) s) in Q. destruct (assemble (asm (fr_sender f) s) f) as [a o]. cbn [snd] in AS.
  destruct AS as [-> | ->]; fin3 Q; (split; [reflexivity|]); (split; [reflexivity|]); apply sbp_store.
Qed.

Lemma completes_part s q b : completes s q b -> match_fragment b = false /\ (q = b \/ exists v t f, part_of (se_details s) v t q = Some f /\ snd (assemble (asm t s) f) = AsmOk b).
Proof.
  intros [[M ->]|(f & a & M & PF & VF & RC & AS & MB)]; [auto|]. split; [assumption|]. right.
  exists (fr_version f), (fr_sender f), f. split; [|unfold asm; now rewrite AS].
  unfold part_of. rewrite M, PF, VF, N.eqb_refl.
  assert (version_eqb (fr_version f) (fr_version f) = true) as -> by (destruct (fr_version f); cbn; try reflexivity; apply N.eqb_refl).
  assert ((fr_receiver f =? 0) || (fr_receiver f =? de_tag (se_details s)) = true) as ->; [|reflexivity].
  apply orb_true_iff. destruct RC as [->| ->]; [left|right]; apply N.eqb_refl.
Qed.
Theorem completed_whole e s q b : sinv s -> enabled (se_details s) -> completes s q b ->
  forall s' out r s'' out'' r'', receive C e s q = (s', out, r) -> receive C e s b = (s'', out'', r'') ->
  r = r'' /\ (r <> Panic -> out = out'' /\ same_but_parts s'' s').
Proof.
  intros SI EN CO. destruct (completes_part _ _ _ CO) as (MB & [->|(v & t & f & PO & AS)]).
  - intros s' out r s'' out'' r'' Q P. rewrite Q in P. apply pair_equal_spec in P. destruct P as [P <-]. apply pair_equal_spec in P. destruct P as [<- <-].
    split; [reflexivity|]. intros _. split; [reflexivity|]. apply sbp_refl.
  - exact (completed_same e s v t q f b SI EN PO AS MB).
Qed.
Theorem incomplete_waits e s q s' out r : enabled (se_details s) -> receive C e s q = (s', out, r) -> r <> Panic -> (forall b, ~ completes s q b) ->
  out = [] /\ (r = Ok UMNone \/ exists x, r = Err x) /\ same_but_parts s s'.
Proof.
  intros EN H NP NC. destruct (receive_split C _ _ _ _ _ _ H NP) as [(D & _)|[(_ & b & CO & _)|(_ & M & -> & S & R)]].
  - rewrite (enabled_not_disabled _ EN) in D. discriminate D.
  - now elim (NC b).
  - split; [reflexivity|]. split; [exact R|]. destruct S as [->|(-> & f & PF & _)]; [apply sbp_refl|].
    unfold stored. rewrite M, PF. apply sbp_store.
Qed.

(** ** The whole message *)

Lemma assemble3 a f : fr_version f = V3 -> snd (assemble a f) = snd (inorder_assemble (am_inorder a) f).
Proof. intros V. unfold assemble. rewrite V. now destruct (inorder_assemble (am_inorder a) f). Qed.
Lemma assemble4 a f : fr_version f = V4 -> snd (assemble a f) = snd (unordered_assemble (am_unordered a) f).
Proof. intros V. unfold assemble. rewrite V. now destruct (unordered_assemble (am_unordered a) f). Qed.

Lemma in_parts_facts d v sd rc m p fs : in_parts v sd rc m p fs -> (v = V3 \/ v = V4) -> rc = 0 \/ rc = de_tag d ->
  exists id, pieces v id sd rc p fs /\ Forall frag_valid fs /\ (2 <= length fs)%nat /\ N.of_nat (length fs) < 65536 /\ match_fragment p = false /\
    forall f q, In f fs -> encode_fragment f = Ok q -> part_of d v sd q = Some f.
Proof.
  intros (SD & RC & EM & _ & max & rnd & MX & LR & FC) V TO.
  destruct (cut_fragments _ _ _ _ _ _ _ FC) as (PI & L2 & L6 & FF); try assumption; [right; lia|lia|].
  eexists. split; [exact PI|]. pose proof (cut_valid _ _ _ _ _ _ _ FC MX) as FV. split; [exact FV|]. split; [assumption|]. split; [assumption|].
  split; [exact (encoded_not_fragment _ _ _ _ _ EM)|]. intros f q I E. destruct (FF f I) as (_ & _ & t & E' & _ & _ & M & PF).
  assert (t = q) as -> by congruence. specialize (PF (encoded_chars _ _ _ _ _ EM)). destruct (pieces_in _ _ _ _ _ _ f PI I) as (E1 & _ & E3 & E4 & _).
  apply part_of_is; try assumption; [|now rewrite E4]. rewrite verify_valid. apply valid_b_iff. rewrite Forall_forall in FV. now apply FV.
Qed.

Lemma others_few f l a g w b : (forall g, In g l -> fr_identifier g = fr_identifier f \/ In g (others f l)) ->
  few_ids 99 (others f l) -> l ++ [f] = a ++ g :: w ++ b -> ~ In (fr_identifier f) (map fr_identifier w) -> few_ids 99 w.
Proof.
  intros OT (ids & LI & IN) E N. exists ids. split; [assumption|]. intros i I. apply in_map_iff in I. destruct I as (x & <- & I).
  assert (X : In x (l ++ [f])).
  { rewrite E. apply in_or_app. right. right. apply in_or_app. now left. }
  assert (NX : fr_identifier x <> fr_identifier f) by (intros Y; apply N; rewrite <- Y; now apply in_map).
  apply in_app_or in X. destruct X as [X|[->|[]]]; [|congruence].
  destruct (OT x X) as [Y|Y]; [congruence|]. apply IN. now apply in_map.
Qed.

Theorem parts4 d h1 s1 h2 s sd rc m p fs f : history C d h1 s1 -> run C s1 h2 s -> enabled d ->
  in_parts V4 sd rc m p fs -> rc = 0 \/ rc = de_tag d -> In f fs ->
  (forall g, In g (parts_from d V4 sd h1) -> fr_identifier g <> fr_identifier f) ->
  (forall g, In g (parts_from d V4 sd h2) -> fr_identifier g = fr_identifier f -> In g fs) ->
  few_ids 99 (others f (parts_from d V4 sd h2)) -> N.of_nat (length h1 + length h2) < 4294967295 ->
  ~ In f (parts_from d V4 sd h2) -> (forall g, In g fs -> g = f \/ In g (parts_from d V4 sd h2)) ->
  (forall h' ev h'' q g, h2 = h' ++ ev :: h'' -> ev_op ev = OpReceive q -> part_of d V4 sd q = Some g -> In g fs ->
     ev_injected ev = [] /\ ev_result ev = Ok (AnMessage UMNone)) /\
  (forall e q s' out r s'' out'' r'', encode_fragment f = Ok q -> receive C e s q = (s', out, r) -> receive C e s p = (s'', out'', r'') ->
     r = r'' /\ (r <> Panic -> out = out'' /\ same_but_parts s'' s')).
Proof.
  intros HI R EN IP RC F NEW MINE FEW LEN NF ALL.
  destruct (history_inv C _ _ _ HI) as [SI1 D1]. pose proof (run_keeps _ _ _ R SI1) as [SI D]. rewrite D1 in D.
  pose proof IP as (_ & _ & _ & SZ & _).
  destruct (in_parts_facts d V4 sd rc m p fs IP (or_intror eq_refl) RC) as (id & PI & FV & L2 & L6 & MP & PQ).
  assert (IDF : forall g, In g fs -> fr_identifier g = id /\ fr_version g = V4) by (intros g G; destruct (pieces_in _ _ _ _ _ _ g PI G) as (E1 & E2 & _); auto).
  destruct (IDF f F) as [IF VF].
  destruct (run_parts4 (session_new d) h1 s1 sd HI (sinv_new d) EN) as (os1 & R1 & N1). cbn [session_new se_details] in R1.
  assert (A0 : am_unordered (asm sd (session_new d)) = unordered_new).
  { unfold asm, entry, session_new. cbn [se_instances get_inst]. destruct (0 =? sd); reflexivity. }
  rewrite A0 in R1. destruct (run_is_history [] _ _ _ _ history_new R1 N1) as (tr & H1 & SE). cbn [app] in H1.
  assert (NP : ~ In id (pending (am_unordered (asm sd s1)))).
  { intros X. apply (history_bounds _ _ H1) in X. destruct X as (g & o & I & _ & E). apply (NEW g); [|congruence]. rewrite <- SE. unfold seen.
    apply in_map_iff. exists (g, o). auto. }
  rewrite <- D1 in EN. destruct (run_parts4 s1 h2 s sd R SI1 EN) as (os2 & R2 & N2). rewrite D1 in R2, EN.
  set (l := parts_from d V4 sd h2) in *.
  assert (LV : forall g, In g (l ++ [f]) -> valid_b g = true).
  { intros g G. apply in_app_or in G. destruct G as [G|[<-|[]]]; [rewrite <- verify_valid; eapply parts_valid; exact G|].
    apply valid_b_iff. rewrite Forall_forall in FV. now apply FV. }
  assert (FL : filter valid_b (l ++ [f]) = l ++ [f]).
  { clear - LV. induction (l ++ [f]) as [|g k IH]; [reflexivity|]. cbn [filter]. rewrite (LV g) by now left. f_equal. apply IH. intros x X. apply LV. now right. }
  assert (OT : forall g, In g l -> fr_identifier g = fr_identifier f \/ In g (others f l)).
  { intros g G. destruct (bytes_eqb (fr_identifier g) (fr_identifier f)) eqn:E; [left; now apply bytes_eqb_eq|right].
    apply filter_In. split; [assumption|]. now rewrite E. }
  destruct (run_complete id sd rc p fs tr (am_unordered (asm sd s1)) PI FV SZ H1 NP l f) with (st := am_unordered (asm sd s)) (os := os2)
    as (WAIT & _ & st' & LAST & _); try assumption.
  { split; [|split].
    - intros g G _ E. apply in_app_or in G. destruct G as [G|[<-|[]]]; [|assumption]. apply MINE; [assumption|congruence].
    - rewrite FL. intros a g w b E IG NW. rewrite <- IF in NW. exact (others_few f l a g w b OT FEW E NW).
    - assert (LT : length tr = length (parts_from d V4 sd h1)) by (rewrite <- SE; unfold seen; now rewrite map_length).
      rewrite app_length. cbn [length]. rewrite LT. pose proof (parts_length d V4 sd h1). pose proof (parts_length d V4 sd h2). fold l in H0. lia. }
  { intros g G. apply in_or_app. destruct (ALL g G) as [->|?]; [right; now left|now left]. }
  split.
  - intros h' ev h'' q g E O PO G. destruct (IDF g G) as [IG VG].
    assert (EL : l = parts_from d V4 sd h' ++ g :: parts_from d V4 sd h'').
    { unfold l. rewrite E. change (ev :: h'') with ([ev] ++ h''). rewrite !parts_app, parts_one, O. cbn [part_in]. now rewrite PO. }
    rewrite E in R. change (ev :: h'') with ([ev] ++ h'') in R. rewrite app_assoc in R. apply SessionHistProofs.run_app in R. destruct R as (s3 & R & _).
    apply run_snoc_inv in R. destruct R as (s0 & es & R0 & CL & NPE). pose proof (run_keeps _ _ _ R0 SI1) as [_ D0]. rewrite D1 in D0.
    rewrite <- D1 in EN. destruct (run_parts4 s1 h' s0 sd R0 SI1 EN) as (os0 & R0' & _). rewrite D1 in R0', EN.
    rewrite EL in R2. pose proof (run_at _ _ _ _ _ _ _ R2) as AT. rewrite R0' in AT. cbn [fst] in AT.
    assert (NL : nth_error l (length (parts_from d V4 sd h')) = Some g).
    { rewrite EL, nth_error_app2 by lia. now rewrite PeanoNat.Nat.sub_diag. }
    assert (VG' : frag_valid g) by (rewrite Forall_forall in FV; now apply FV).
    rewrite O in CL. cbn [call] in CL. apply answering_inv in CL; [|assumption]. destruct CL as (r0 & CL & RE & _). rewrite <- D0 in EN, PO.
    assert (AW : snd (assemble (asm sd s0) g) = AsmErr IncompleteResult \/ snd (assemble (asm sd s0) g) = AsmErr UnexpectedFragment).
    { rewrite assemble4 by assumption. destruct (WAIT _ _ NL VG' IG) as [W|W]; rewrite W in AT; injection AT as <-; auto. }
    destruct (waiting_same _ _ _ _ _ _ EN PO AW _ _ _ CL) as (-> & -> & _). rewrite RE. auto.
  - intros e q s' out r s'' out'' r'' E. rewrite <- D in EN. apply (completed_same e s V4 sd q f p SI EN); [rewrite D; now apply PQ| |assumption].
    rewrite assemble4 by assumption. now rewrite LAST.
Qed.

Theorem parts3 d h1 s1 h2 s sd rc m p fs f : history C d h1 s1 -> run C s1 h2 s -> enabled d ->
  in_parts V3 sd rc m p (fs ++ [f]) -> rc = 0 \/ rc = de_tag d ->
  parts_from d V3 sd h2 = fs -> silent C sd s1 h2 ->
  (forall h' ev h'' q g, h2 = h' ++ ev :: h'' -> ev_op ev = OpReceive q -> part_of d V3 sd q = Some g ->
     ev_injected ev = [] /\ ev_result ev = Ok (AnMessage UMNone)) /\
  (forall e q s' out r s'' out'' r'', encode_fragment f = Ok q -> receive C e s q = (s', out, r) -> receive C e s p = (s'', out'', r'') ->
     r = r'' /\ (r <> Panic -> out = out'' /\ same_but_parts s'' s')).
Proof.
  intros HI R EN IP RC PF SL.
  destruct (history_inv C _ _ _ HI) as [SI1 D1]. pose proof (run_keeps _ _ _ R SI1) as [SI D]. rewrite D1 in D.
  destruct (in_parts_facts d V3 sd rc m p _ IP (or_introl eq_refl) RC) as (id & PI & FV & L2 & L6 & MP & PQ).
  pose proof (inorder_complete id sd rc p (fs ++ [f]) (am_inorder (asm sd s1)) PI FV L2 L6) as CO.
  assert (VER : forall g, In g (fs ++ [f]) -> fr_version g = V3) by (intros g G; destruct (pieces_in _ _ _ _ _ _ g PI G) as (E1 & _); exact E1).
  rewrite <- D1 in EN. destruct (run_parts3 s1 h2 s sd R SI1 EN SL) as (os2 & R2). rewrite D1 in R2, EN. rewrite PF in R2.
  pose proof (run_length _ _ _ _ _ R2) as L3. rewrite (run_one _ _ _ f _ _ R2) in CO. rewrite app_length in CO. cbn [length] in CO.
  replace (length fs + 1 - 1)%nat with (length fs) in CO by lia.
  assert (OS : os2 = repeat (AsmErr IncompleteResult) (length fs) /\ snd (inorder_assemble (am_inorder (asm sd s)) f) = AsmOk p).
  { apply (f_equal snd) in CO. cbn [snd] in CO. apply app_inj_tail in CO. exact CO. }
  destruct OS as [OS LAST]. split.
  - intros h' ev h'' q g E O PO.
    assert (EL : fs = parts_from d V3 sd h' ++ g :: parts_from d V3 sd h'').
    { rewrite <- PF, E. change (ev :: h'') with ([ev] ++ h''). rewrite !parts_app, parts_one, O. cbn [part_in]. now rewrite PO. }
    assert (SL' : silent C sd s1 h').
    { intros a x b s0 q0 em EE. apply (SL a x (b ++ ev :: h'')). rewrite E, EE. now rewrite <- app_assoc. }
    rewrite E in R. change (ev :: h'') with ([ev] ++ h'') in R. rewrite app_assoc in R. apply SessionHistProofs.run_app in R. destruct R as (s3 & R & _).
    apply run_snoc_inv in R. destruct R as (s0 & es & R0 & CL & NPE). pose proof (run_keeps _ _ _ R0 SI1) as [_ D0]. rewrite D1 in D0.
    rewrite <- D1 in EN. destruct (run_parts3 s1 h' s0 sd R0 SI1 EN SL') as (os0 & R0'). rewrite D1 in R0', EN.
    rewrite EL in R2. pose proof (run_at _ _ _ _ _ _ _ R2) as AT. rewrite R0' in AT. cbn [fst] in AT.
    assert (VG : fr_version g = V3) by (apply VER; rewrite EL; apply in_or_app; left; apply in_or_app; right; now left).
    rewrite O in CL. cbn [call] in CL. apply answering_inv in CL; [|assumption]. destruct CL as (r0 & CL & RE & _). rewrite <- D0 in EN, PO.
    assert (AW : snd (assemble (asm sd s0) g) = AsmErr IncompleteResult \/ snd (assemble (asm sd s0) g) = AsmErr UnexpectedFragment).
    { left. rewrite assemble3 by assumption. apply nth_error_In in AT. rewrite OS in AT. apply repeat_spec in AT. exact AT. }
    destruct (waiting_same _ _ _ _ _ _ EN PO AW _ _ _ CL) as (-> & -> & _). rewrite RE. auto.
  - intros e q s' out r s'' out'' r'' E. rewrite <- D in EN.
    assert (FI : In f (fs ++ [f])) by (apply in_or_app; right; now left).
    apply (completed_same e s V3 sd q f p SI EN); [rewrite D; now apply PQ| |assumption].
    rewrite assemble3 by now apply VER. exact LAST.
Qed.
End WithCrypto.
