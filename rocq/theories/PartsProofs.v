(* Receiving a message does not depend on the parts of other messages that are kept. *)
From Verif Require Import Base BaseLemmas Types Crypto Encoding Messages Fragment KeyManager DataV3 Ratchet DataV4 AKE DAKE SMP SMP4 Protocol Session
  SpecSession SessionProofs SessionInvProofs SpecParts.
From Coq Require Import Lia.
Local Open Scope N_scope.

(** ** Instances *)

Definition same_effect {A} (x y : effect instance A) : Prop :=
  same_entry (fst (fst x)) (fst (fst y)) /\ snd (fst x) = snd (fst y) /\ snd x = snd y.

Lemma same_refl i : same_entry i i. Proof. split; [|split; [|split]]; reflexivity. Qed.
Lemma same_sym i j : same_entry i j -> same_entry j i.
Proof. intros (A & B & D & E). split; [|split; [|split]]; congruence. Qed.
Lemma same_trans i j k : same_entry i j -> same_entry j k -> same_entry i k.
Proof. intros (A & B & D & E) (A' & B' & D' & E'). split; [|split; [|split]]; congruence. Qed.
Lemma same_set i a : same_entry i (set_assembler i a).
Proof. split; [|split; [|split]]; reflexivity. Qed.
Lemma same_as i j : same_entry i j -> j = set_assembler i (in_assembler j).
Proof. destruct i, j. intros (A & B & D & E). cbn in *. now subst. Qed.

Ltac leaf := split; [split; [|split; [|split]]; reflexivity|split; reflexivity].
Ltac cases := repeat (leaf || match goal with |- same_effect ?x _ => match x with context [match ?b with _ => _ end] =>
  lazymatch b with context [match _ with _ => _ end] => fail | _ => destruct b end end end).

Section WithCrypto.
Context (C : Crypto).

Lemma initiate_same d e i j v : same_entry i j -> same_effect (inst_initiate C d e i v) (inst_initiate C d e j v).
Proof.
  intros S. rewrite (same_as _ _ S). generalize (in_assembler j). intros a. clear. destruct i as [rc a0 st ak dk].
  unfold inst_initiate, injecting, inject, set_assembler, set_ake, set_dake. cbn [in_receiver in_assembler in_state in_ake in_dake].
  cases.
Qed.
Lemma data3_same d e i a sd rc m : same_effect (inst_data3 C d e i sd rc m) (inst_data3 C d e (set_assembler i a) sd rc m).
Proof.
  destruct i as [r0 a0 st ak dk].
  unfold inst_data3, data_error, smp_finish, inject, set_assembler, set_state. cbn [in_receiver in_assembler in_state in_ake in_dake]. cbv zeta.
  cases.
Qed.
Lemma data4_same d e i a sd rc m : same_effect (inst_data4 C d e i sd rc m) (inst_data4 C d e (set_assembler i a) sd rc m).
Proof.
  destruct i as [r0 a0 st ak dk].
  unfold inst_data4, data_error, smp_finish, inject, set_assembler, set_state. cbn [in_receiver in_assembler in_state in_ake in_dake]. cbv zeta.
  cases.
Qed.
Lemma handle_same d e i j em : same_entry i j -> same_effect (inst_handle C d e i em) (inst_handle C d e j em).
Proof.
  intros S. rewrite (same_as _ _ S). generalize (in_assembler j). intros a. clear. destruct i as [r0 a0 st ak dk].
  unfold inst_handle. cbv zeta. destruct (em_version em); destruct (em_message em); try leaf.
  all: try match goal with |- same_effect (inst_data3 _ _ _ ?x _ _ _) (inst_data3 _ _ _ ?y _ _ _) =>
    exact (data3_same d e x (in_assembler y) (em_sender em) (em_receiver em) _) end.
  all: try match goal with |- same_effect (inst_data4 _ _ _ ?x _ _ _) (inst_data4 _ _ _ ?y _ _ _) =>
    exact (data4_same d e x (in_assembler y) (em_sender em) (em_receiver em) _) end.
  all: unfold secure, injecting, inject, set_assembler, set_state, set_ake, set_dake; cbn [in_receiver in_assembler in_state in_ake in_dake bind]; cbv zeta.
  all: unfold bind; cases.
Qed.

(** ** Sessions *)

(* every client is listed once, and there is the entry for the clients that are not known yet *)
Definition kept_well (s : session) : Prop := NoDup (map fst (se_instances s)) /\ get_inst 0 (se_instances s) <> None.
Definition same_session {A} (x y : effect session A) : Prop :=
  same_but_parts (fst (fst x)) (fst (fst y)) /\ snd (fst x) = snd (fst y) /\ snd x = snd y.

Lemma sbp_refl s : same_but_parts s s.
Proof. split; [reflexivity|]. split; [reflexivity|]. intros t. apply same_refl. Qed.
Lemma sbp_trans s1 s2 s3 : same_but_parts s1 s2 -> same_but_parts s2 s3 -> same_but_parts s1 s3.
Proof.
  intros (A & B & D) (A' & B' & D'). split; [congruence|]. split; [congruence|]. intros t. exact (same_trans _ _ _ (D t) (D' t)).
Qed.
Lemma sbp_sym s1 s2 : same_but_parts s1 s2 -> same_but_parts s2 s1.
Proof. intros (A & B & D). split; [congruence|]. split; [congruence|]. intros t. exact (same_sym _ _ (D t)). Qed.
Lemma entry_put_is s t i u : entry u (se_instances (put s t i)) = if t =? u then i else entry u (se_instances s).
Proof.
  unfold entry. destruct (N.eqb_spec t u) as [->|N]; [now rewrite get_put_same|]. now rewrite get_put_other.
Qed.
Lemma sbp_put s1 s2 t i j : same_but_parts s1 s2 -> same_entry i j -> same_but_parts (put s1 t i) (put s2 t j).
Proof.
  intros (A & B & D) S. split; [exact A|]. split; [exact B|]. intros u. rewrite !entry_put_is. destruct (t =? u); auto.
Qed.
Lemma sbp_store s t a : same_but_parts s (put s t (set_assembler (entry t (se_instances s)) a)).
Proof.
  split; [reflexivity|]. split; [reflexivity|]. intros u. rewrite entry_put_is. destruct (N.eqb_spec t u) as [->|N]; [apply same_set|apply same_refl].
Qed.
Lemma kept_put s t i : kept_well s -> kept_well (put s t i).
Proof.
  intros [A B]. split; [now apply nodup_set|]. destruct (N.eq_dec t 0) as [->|N]; [rewrite get_put_same; discriminate|now rewrite get_put_other].
Qed.

Lemma same_here {A} s1 s2 out (r : res A) : same_but_parts s1 s2 -> same_session (s1, out, r) (s2, out, r).
Proof. intros R. split; [exact R|]. split; reflexivity. Qed.

(* a test on all entries that a new entry passes *)
Lemma all_entries (P : N * instance -> bool) l : NoDup (map fst l) -> (forall t, P (t, instance_new t) = true) ->
  forallb P l = true <-> forall t, P (t, entry t l) = true.
Proof.
  intros ND NEW. rewrite forallb_forall. split.
  - intros H t. unfold entry. destruct (get_inst t l) as [i|] eqn:G; [|apply NEW]. apply H. now apply get_in.
  - intros H [t i] I. specialize (H t). unfold entry in H. now rewrite (in_get _ _ _ ND I) in H.
Qed.
Lemma has_sessions_same s1 s2 : kept_well s1 -> kept_well s2 -> same_but_parts s1 s2 -> has_sessions s2 = has_sessions s1.
Proof.
  intros [K1 _] [K2 _] (_ & _ & S). unfold has_sessions.
  set (P := fun '(k, i) => (k =? in_receiver i) && (negb (k =? 0) || status_eqb (in_status i) Plaintext)).
  set (Q := fun '(_, i) => status_eqb (in_status i) Encrypted || status_eqb (in_status i) Finished).
  assert (PE : forallb P (se_instances s2) = forallb P (se_instances s1)).
  { apply Bool.eq_iff_eq_true. rewrite !all_entries; try assumption.
    - split; intros H t; specialize (H t); unfold P, in_status in *; destruct (S t) as (A & B & _); rewrite ?A, ?B in *; assumption.
    - intros t. unfold P. cbn. now rewrite N.eqb_refl, Bool.orb_true_r.
    - intros t. unfold P. cbn. now rewrite N.eqb_refl, Bool.orb_true_r. }
  assert (QE : forall l, existsb Q l = negb (forallb (fun x => negb (Q x)) l)).
  { induction l as [|x l IH]; [reflexivity|]. cbn [existsb forallb]. rewrite IH. now destruct (Q x), (forallb _ l). }
  assert (QQ : existsb Q (se_instances s2) = existsb Q (se_instances s1)).
  { rewrite !QE. f_equal. apply Bool.eq_iff_eq_true. rewrite !all_entries; try assumption; try reflexivity.
    split; intros H t; specialize (H t); unfold Q, in_status in *; destruct (S t) as (A & B & _); rewrite ?A, ?B in *; assumption. }
  now rewrite PE, QQ.
Qed.

Lemma on_entry_same {A} s1 s2 t (f g : instance -> effect instance A) : same_but_parts s1 s2 ->
  (forall i j, same_entry i j -> same_effect (f i) (g j)) -> same_session (on_entry s1 t f) (on_entry s2 t g).
Proof.
  intros S F. unfold on_entry. pose proof (F _ _ (proj2 (proj2 S) t)) as E.
  destruct (f _) as [[i o] r], (g _) as [[j o'] r']. destruct E as (E1 & E2 & E3). cbn in E1, E2, E3. subst o' r'.
  destruct r; apply same_here; try assumption; now apply sbp_put.
Qed.
Lemma initiate_sessions e s1 s2 v t : same_but_parts s1 s2 -> same_session (initiate C e s1 v t) (initiate C e s2 v t).
Proof. intros S. unfold initiate. rewrite (proj1 S). apply on_entry_same; [assumption|]. intros i j E. now apply initiate_same. Qed.
Lemma deliver_same s1 s2 out c : kept_well s1 -> kept_well s2 -> same_but_parts s1 s2 -> same_session (deliver_text s1 out c) (deliver_text s2 out c).
Proof.
  intros K1 K2 S. unfold deliver_text. rewrite (has_sessions_same _ _ K1 K2 S), (proj1 S). destruct (has_sessions s1); now apply same_here.
Qed.
Lemma on_entry_kept {A} s t (f : instance -> effect instance A) : kept_well s -> kept_well (fst (fst (on_entry s t f))).
Proof. intros K. unfold on_entry. destruct (f _) as [[i o] [x|x|]]; try assumption; now apply kept_put. Qed.

Lemma encoded_same e s1 s2 em : kept_well s1 -> kept_well s2 -> same_but_parts s1 s2 ->
  same_session (receive_encoded C e s1 em) (receive_encoded C e s2 em).
Proof.
  intros [_ Z1] [_ Z2] S. unfold receive_encoded. cbv zeta. rewrite (proj1 S).
  destruct (em_sender em =? 0); [now apply same_here|].
  destruct (verify_header _ _) as [u|x|]; [|now apply same_here..].
  destruct (_ || _); [now apply same_here|].
  assert (H : same_session (on_entry s1 (em_sender em) (fun i => inst_handle C (se_details s1) e i em))
    (on_entry s2 (em_sender em) (fun i => inst_handle C (se_details s1) e i em))).
  { apply on_entry_same; [assumption|]. intros i j E. now apply handle_same. }
  pose proof (proj2 (proj2 S) 0) as Z. unfold entry in Z.
  destruct (get_inst 0 (se_instances s1)) as [z1|]; [|now elim Z1]. destruct (get_inst 0 (se_instances s2)) as [z2|]; [|now elim Z2].
  destruct Z as (ZR & _ & ZA & ZD).
  destruct (em_version em); try exact H; destruct (em_message em); try exact H.
  - assert (transfer_ake_context z2 = transfer_ake_context z1) as -> by (unfold transfer_ake_context; now rewrite ZR, ZA).
    destruct (transfer_ake_context z1); [|exact H|now apply same_here].
    apply on_entry_same; [assumption|]. intros i j E. unfold adopt_ake_context. rewrite (proj1 E). destruct (in_receiver i =? 0).
    + split; [exact E|split; reflexivity].
    + apply handle_same. destruct E as (A & B & D & F). split; [|split; [|split]]; try assumption. reflexivity.
  - assert (transfer_dake_context z2 = transfer_dake_context z1) as -> by (unfold transfer_dake_context; now rewrite ZR, ZD).
    destruct (transfer_dake_context z1); [|exact H|now apply same_here].
    apply on_entry_same; [assumption|]. intros i j E. unfold adopt_dake_context. rewrite (proj1 E). destruct (in_receiver i =? 0).
    + split; [exact E|split; reflexivity].
    + apply handle_same. destruct E as (A & B & D & F). split; [|split; [|split]]; try assumption. reflexivity.
Qed.

Lemma message_same e s1 s2 p : kept_well s1 -> kept_well s2 -> same_but_parts s1 s2 ->
  same_session (receive_message C e s1 p) (receive_message C e s2 p).
Proof.
  intros K1 K2 S. unfold receive_message. cbv zeta.
  assert (query s2 = query s1) as -> by (unfold query; now rewrite (proj1 S)). rewrite (proj1 S).
  assert (IK : forall s v, kept_well s -> kept_well (fst (fst (initiate C e s v 0)))) by (intros s v K; now apply on_entry_kept).
  destruct (parse C p) as [[t|t|vs t|vs|em]|x|]; try (now apply same_here).
  - destruct (error_start_ake _); [|now apply same_here]. destruct (query s1); now apply same_here.
  - now apply deliver_same.
  - destruct (if whitespace_start_ake _ then _ else _) as [v|]; [|now apply deliver_same].
    pose proof (initiate_sessions e _ _ v 0 S) as I. pose proof (IK _ v K1) as G1. pose proof (IK _ v K2) as G2.
    destruct (initiate C e s1 v 0) as [[s1' o1] r1], (initiate C e s2 v 0) as [[s2' o2] r2].
    destruct I as (I1 & I2 & I3). cbn in I1, I2, I3, G1, G2. subst o2 r2. destruct r1; [now apply deliver_same|now apply same_here..].
  - destruct (select_version _ vs) as [v|]; [|now apply same_here].
    pose proof (initiate_sessions e _ _ v 0 S) as I.
    destruct (initiate C e s1 v 0) as [[s1' o1] r1], (initiate C e s2 v 0) as [[s2' o2] r2].
    destruct I as (I1 & I2 & I3). cbn in I1, I2, I3. subst o2 r2. destruct r1; now apply same_here.
  - now apply encoded_same.
Qed.
End WithCrypto.
