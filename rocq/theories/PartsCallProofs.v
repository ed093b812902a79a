(* Sessions that differ only in the parts of messages that wait for the rest: every call. *)
From Verif Require Import Base BaseLemmas Types Crypto Encoding Messages Fragment KeyManager DataV3 Ratchet DataV4 AKE DAKE SMP SMP4 Protocol Session
  SpecSession SessionProofs SessionInvProofs SessionSendProofs SessionRecvProofs StartProofs SpecParts PartsProofs PartsLemmas PartsRunProofs.
From Coq Require Import Lia.
Local Open Scope N_scope.

Section WithCrypto.
Context (C : Crypto).

Lemma reset_same d e i j : same_entry i j -> same_effect (inst_reset C d e i) (inst_reset C d e j).
Proof.
  intros S. rewrite (same_as _ _ S). generalize (in_assembler j). intros a. clear. destruct i as [rc a0 st ak dk].
  unfold inst_reset, injecting, inject, set_assembler, set_state, in_status. cbn [in_receiver in_assembler in_state in_ake in_dake]. cbv zeta. cases.
Qed.
Lemma start_smp_same d e i j x y : same_entry i j -> same_effect (inst_start_smp C d e i x y) (inst_start_smp C d e j x y).
Proof.
  intros S. rewrite (same_as _ _ S). generalize (in_assembler j). intros a. clear. destruct i as [rc a0 st ak dk].
  unfold inst_start_smp, injecting, inject, set_assembler, set_state. cbn [in_receiver in_assembler in_state in_ake in_dake]. cbv zeta. cases.
Qed.
Lemma abort_smp_same d e i j : same_entry i j -> same_effect (inst_abort_smp C d e i) (inst_abort_smp C d e j).
Proof.
  intros S. rewrite (same_as _ _ S). generalize (in_assembler j). intros a. clear. destruct i as [rc a0 st ak dk].
  unfold inst_abort_smp, injecting, inject, set_assembler, set_state. cbn [in_receiver in_assembler in_state in_ake in_dake]. cbv zeta. cases.
Qed.
Lemma expire_same d e i j x : same_entry i j -> same_effect (inst_expire C d e i x) (inst_expire C d e j x).
Proof.
  intros S. rewrite (same_as _ _ S). generalize (in_assembler j). intros a. clear. destruct i as [rc a0 st ak dk].
  unfold inst_expire, injecting, inject, set_assembler, set_state, in_status. cbn [in_receiver in_assembler in_state in_ake in_dake]. cbv zeta. cases.
Qed.
Lemma send_same d e i j tg c : same_entry i j ->
  same_entry (fst (fst (inst_send C d e i tg c))) (fst (fst (inst_send C d e j tg c))) /\
  snd (fst (inst_send C d e i tg c)) = snd (fst (inst_send C d e j tg c)) /\ snd (inst_send C d e i tg c) = snd (inst_send C d e j tg c).
Proof.
  intros S. rewrite (same_as _ _ S). generalize (in_assembler j). intros a. clear. destruct i as [rc a0 st ak dk].
  unfold inst_send, payloads, set_assembler, set_state. cbn [in_receiver in_assembler in_state in_ake in_dake]. cbv zeta.
  destruct (p_prepare C st false (drop_by_value c x00) (ev_send e)) as [[s m]|x|]; [|leaf..]. destruct m; try leaf.
  destruct (negb _); [leaf|]. destruct (_ && _); leaf.
Qed.

Definition both_listed (s1 s2 : session) (t : N) : Prop := ses_status s1 t = None <-> ses_status s2 t = None.
Lemma listed_cases s1 s2 t : same_but_parts s1 s2 -> both_listed s1 s2 t ->
  (get_inst t (se_instances s1) = None /\ get_inst t (se_instances s2) = None) \/
  exists i j, get_inst t (se_instances s1) = Some i /\ get_inst t (se_instances s2) = Some j /\ same_entry i j.
Proof.
  intros (_ & _ & S) L. unfold both_listed, ses_status in L. specialize (S t). unfold entry in S.
  destruct (get_inst t (se_instances s1)) as [i|], (get_inst t (se_instances s2)) as [j|].
  - right. exists i, j. auto.
  - destruct L as [_ L]. discriminate (L eq_refl).
  - destruct L as [L _]. discriminate (L eq_refl).
  - now left.
Qed.
Lemma on_instance_same {A} s1 s2 t (f g : instance -> effect instance A) : same_but_parts s1 s2 -> both_listed s1 s2 t ->
  (forall i j, same_entry i j -> same_effect (f i) (g j)) -> same_session (on_instance s1 t f) (on_instance s2 t g).
Proof.
  intros S L F. unfold on_instance. destruct (listed_cases _ _ _ S L) as [[-> ->]|(i & j & -> & -> & E)]; [now apply same_here|].
  specialize (F _ _ E). destruct (f i) as [[i' o] r], (g j) as [[j' o'] r']. destruct F as (E1 & E2 & E3). cbn in E1, E2, E3. subst o' r'.
  destruct r; apply same_here; try assumption; now apply sbp_put.
Qed.
Lemma set_inst_same l1 l2 t i j : (forall u, same_entry (entry u l1) (entry u l2)) -> same_entry i j ->
  forall u, same_entry (entry u (set_inst t i l1)) (entry u (set_inst t j l2)).
Proof.
  intros S E u. pose proof (sbp_put (mkSession (mkDetails (mkPolicy false false false false false false) 0 [] []) l1 false)
    (mkSession (mkDetails (mkPolicy false false false false false false) 0 [] []) l2 false) t i j) as P.
  destruct P as (_ & _ & P); [split; [reflexivity|split; [reflexivity|exact S]]|exact E|]. exact (P u).
Qed.
Lemma send_sessions e s1 s2 t c : same_but_parts s1 s2 -> both_listed s1 s2 t -> same_session (send C e s1 t c) (send C e s2 t c).
Proof.
  intros S L. unfold send. cbv zeta. assert (Q : query s2 = query s1) by (unfold query; now rewrite (proj1 S)). rewrite Q, (proj1 S), (proj1 (proj2 S)).
  destruct (otr_disabled _); [now apply same_here|].
  destruct (listed_cases _ _ _ S L) as [[-> ->]|(i & j & -> & -> & E)]; [now apply same_here|].
  assert (in_status j = in_status i) as -> by (unfold in_status; destruct E as (_ & -> & _); reflexivity).
  destruct (_ && _); [destruct (query s1); now apply same_here|].
  pose proof (send_same (se_details s1) e i j (se_tagged s1) c E) as F.
  destruct (inst_send C (se_details s1) e i (se_tagged s1) c) as [[i' tg] r], (inst_send C (se_details s1) e j (se_tagged s1) c) as [[j' tg'] r'].
  cbn [fst snd] in F. destruct F as (F1 & <- & <-).
  assert (SB : same_but_parts (mkSession (se_details s1) (set_inst t i' (se_instances s1)) tg) (mkSession (se_details s1) (set_inst t j' (se_instances s2)) tg)).
  { split; [reflexivity|]. split; [reflexivity|]. cbn [se_instances]. apply set_inst_same; [exact (proj2 (proj2 S))|assumption]. }
  destruct r; apply same_here; assumption.
Qed.
Lemma expire_all_same d es x l1 : forall l2, Forall2 (fun a b => fst b = fst a /\ same_entry (snd a) (snd b)) l1 l2 ->
  Forall2 (fun a b => fst b = fst a /\ same_entry (snd a) (snd b)) (fst (fst (expire_all C d es x l1))) (fst (fst (expire_all C d es x l2))) /\
  snd (fst (expire_all C d es x l1)) = snd (fst (expire_all C d es x l2)) /\ snd (expire_all C d es x l1) = snd (expire_all C d es x l2).
Proof.
  induction l1 as [|[t i] l1 IH]; intros l2 F; inversion F as [|? [u j] ? l2' [E1 E2] F' Z]; subst; cbn [fst snd] in *; [split; [constructor|split; reflexivity]|].
  subst u. cbn [expire_all]. specialize (IH _ F'). pose proof (expire_same d (es t) i j x E2) as (A & B & D).
  destruct (inst_expire C d (es t) i x) as [[i' o] r], (inst_expire C d (es t) j x) as [[j' o'] r']. cbn [fst snd] in A, B, D. subst o' r'.
  destruct (expire_all C d es x l1) as [[r1 o1] x1], (expire_all C d es x l2') as [[r2 o2] x2]. cbn [fst snd] in IH. destruct IH as (IA & <- & <-).
  destruct r; cbn [fst snd]; (split; [constructor; auto|split; reflexivity]).
Qed.
Lemma aligned l1 : forall l2, NoDup (map fst l1) -> map fst l1 = map fst l2 -> (forall u, same_entry (entry u l1) (entry u l2)) ->
  Forall2 (fun a b => fst b = fst a /\ same_entry (snd a) (snd b)) l1 l2.
Proof.
  induction l1 as [|[t i] l1 IH]; intros [|[u j] l2] ND E S; try discriminate E; constructor.
  - injection E as -> _. cbn [fst snd]. split; [reflexivity|]. specialize (S u). unfold entry in S. cbn [get_inst] in S. now rewrite N.eqb_refl in S.
  - injection E as -> E. cbn [map fst] in ND. inversion ND as [|? ? NI ND']. subst. apply IH; try assumption. intros v. specialize (S v). unfold entry in *. cbn [get_inst] in S.
    destruct (N.eqb_spec u v) as [->|N]; [|exact S].
    assert (NO : forall l, ~ In v (map fst l) -> get_inst v l = None).
    { clear. intros l N. destruct (get_inst v l) eqn:G; [|reflexivity]. apply get_in in G. elim N. apply in_map_iff. eexists. split; [|exact G]. reflexivity. }
    rewrite (NO l1 NI), NO by (now rewrite <- E). apply same_refl.
Qed.
Lemma aligned_entries l1 : forall l2, Forall2 (fun a b => fst b = fst a /\ same_entry (snd a) (snd b)) l1 l2 -> forall u, same_entry (entry u l1) (entry u l2).
Proof.
  intros l2 F u. unfold entry. induction F as [|[t i] [t' j] l1 l2 [E S] F IH]; [apply same_refl|]. cbn [fst snd] in *. subst t'. cbn [get_inst].
  destruct (t =? u); assumption.
Qed.
Lemma expire_sessions es s1 s2 x : kept_well s1 -> same_but_parts s1 s2 -> map fst (se_instances s1) = map fst (se_instances s2) ->
  same_session (expire C es s1 x) (expire C es s2 x).
Proof.
  intros [K _] S E. unfold expire. rewrite (proj1 S).
  pose proof (expire_all_same (se_details s1) es x _ _ (aligned _ _ K E (proj2 (proj2 S)))) as (A & B & D).
  destruct (expire_all C (se_details s1) es x (se_instances s1)) as [[l1 o1] r1], (expire_all C (se_details s1) es x (se_instances s2)) as [[l2 o2] r2].
  cbn [fst snd] in A, B, D. subst o2 r2.
  assert (SB : same_but_parts (with_instances s1 l1) (with_instances s2 l2)).
  { split; [exact (proj1 S)|]. split; [exact (proj1 (proj2 S))|]. cbn [se_instances with_instances]. now apply aligned_entries. }
  destruct r1; apply same_here; assumption.
Qed.

Lemma answering_same {A} (f : A -> answer) x y : same_session x y -> same_session (answering f x) (answering f y).
Proof. destruct x as [[s o] r], y as [[s' o'] r']. intros (P & Q & R). cbn in P, Q, R. subst. split; [exact P|split; reflexivity]. Qed.

Definition same_outcome {A} (x y : effect session A) : Prop :=
  snd x = snd y /\ (snd x <> Panic -> snd (fst x) = snd (fst y) /\ same_but_parts (fst (fst x)) (fst (fst y))).
Lemma same_outcome_of {A} (x y : effect session A) : same_session x y -> same_outcome x y.
Proof. intros (P & Q & R). split; auto. Qed.

Theorem call_same es s1 s2 o : sinv s1 -> sinv s2 -> enabled (se_details s1) -> same_but_parts s1 s2 -> comparable s1 s2 o ->
  same_outcome (call C es s1 o) (call C es s2 o).
Proof.
  intros I1 I2 EN S CM. pose proof (kept_sinv _ I1) as K1. pose proof (kept_sinv _ I2) as K2. destruct o; cbn [comparable] in CM; unfold call.
  - destruct CM as (b & C1 & C2). assert (EN2 : enabled (se_details s2)) by (now rewrite (proj1 S)).
    assert (MB : match_fragment b = false) by (now apply completes_part in C1).
    pose proof (message_same C (es 0) s1 s2 b K1 K2 S) as M.
    assert (B : forall s, enabled (se_details s) -> receive C (es 0) s b = receive_message C (es 0) s b).
    { intros s E. unfold receive. now rewrite (enabled_not_disabled _ E), MB. }
    destruct (receive C (es 0) s1 payload) as [[s1' o1] r1] eqn:R1. destruct (receive C (es 0) s2 payload) as [[s2' o2] r2] eqn:R2.
    rewrite <- !B in M by assumption. destruct (receive C (es 0) s1 b) as [[s1'' o1'] r1'] eqn:B1. destruct (receive C (es 0) s2 b) as [[s2'' o2'] r2'] eqn:B2.
    destruct (completed_whole C _ _ _ _ I1 EN C1 _ _ _ _ _ _ R1 B1) as [E1 F1]. destruct (completed_whole C _ _ _ _ I2 EN2 C2 _ _ _ _ _ _ R2 B2) as [E2 F2].
    destruct M as (M1 & M2 & M3). cbn [fst snd] in M1, M2, M3. subst r1' r2' o2' r2. unfold same_outcome, answering. cbn [fst snd].
    split; [reflexivity|]. intros NP. assert (NR : r1 <> Panic) by (intros ->; apply NP; reflexivity).
    destruct (F1 NR) as [-> G1]. destruct (F2 NR) as [-> G2]. split; [reflexivity|].
    exact (sbp_trans _ _ _ (sbp_sym _ _ G1) (sbp_trans _ _ _ M1 G2)).
  - apply same_outcome_of, answering_same. now apply send_sessions.
  - apply same_outcome_of, answering_same. now apply initiate_sessions.
  - apply same_outcome_of, answering_same. unfold end_session. rewrite (proj1 S). apply on_instance_same; try assumption. intros i j. apply reset_same.
  - apply same_outcome_of, answering_same. unfold ses_query. assert (query s2 = query s1) as -> by (unfold query; now rewrite (proj1 S)).
    destruct (query s1); now apply same_here.
  - apply same_outcome_of, answering_same. unfold start_smp. rewrite (proj1 S). apply on_instance_same; try assumption. intros i j. apply start_smp_same.
  - apply same_outcome_of, answering_same. unfold abort_smp. rewrite (proj1 S). apply on_instance_same; try assumption. intros i j. apply abort_smp_same.
  - apply same_outcome_of, answering_same. now apply expire_sessions.
Qed.

(* what the user can ask *)
Theorem seen_same s1 s2 t : same_but_parts s1 s2 -> both_listed s1 s2 t -> ses_status s1 t = ses_status s2 t /\ ses_ssid s1 t = ses_ssid s2 t.
Proof.
  intros S L. unfold ses_status, ses_ssid. destruct (listed_cases _ _ _ S L) as [[-> ->]|(i & j & -> & -> & E)]; [auto|].
  unfold in_status, inst_ssid. destruct E as (_ & -> & _). auto.
Qed.
End WithCrypto.
