(* The order in which clients and sessions are kept makes no difference. *)
From Verif Require Import Base BaseLemmas Types Crypto Encoding Messages Fragment KeyManager DataV3
  Ratchet DataV4 AKE DAKE SMP SMP4 Protocol Session SpecSession SessionProofs SessionPartyProofs SessionInvProofs SessionSendProofs SessionHistProofs
  Account SpecAccount AccountProofs SpecOrder.
From Coq Require Import Sorting.Permutation.
Local Open Scope N_scope.

(** ** Tables *)

Lemma get_in_iff t i l : NoDup (map fst l) -> (get_inst t l = Some i <-> In (t, i) l).
Proof. intros ND. split; [apply get_in|now apply in_get]. Qed.
Lemma perm_keys (l1 l2 : instances) : Permutation l1 l2 -> NoDup (map fst l1) -> NoDup (map fst l2).
Proof. intros P. apply Permutation_NoDup. now apply Permutation_map. Qed.
Lemma perm_get t l1 l2 : Permutation l1 l2 -> NoDup (map fst l1) -> get_inst t l1 = get_inst t l2.
Proof.
  intros P ND. pose proof (perm_keys _ _ P ND) as ND2. destruct (get_inst t l1) as [i|] eqn:E1.
  - apply get_in in E1. symmetry. apply get_in_iff; [exact ND2|]. eapply Permutation_in; eassumption.
  - destruct (get_inst t l2) as [i|] eqn:E2; [|reflexivity]. apply get_in in E2.
    apply (Permutation_in _ (Permutation_sym P)) in E2. apply get_in_iff in E2; [congruence|exact ND].
Qed.
Lemma perm_set t i l1 l2 : Permutation l1 l2 -> NoDup (map fst l1) -> Permutation (set_inst t i l1) (set_inst t i l2).
Proof.
  intros P. induction P as [|[k j] l l' P IH|[k j] [k' j'] l|l l' l'' P1 IH1 P2 IH2]; intros ND.
  - constructor; constructor.
  - cbn [set_inst]. destruct (k =? t); [now constructor|]. constructor. apply IH. now inversion ND.
  - cbn [set_inst]. destruct (N.eqb_spec k t) as [->|N1], (N.eqb_spec k' t) as [->|N2]; try (apply perm_swap).
    exfalso. inversion ND as [|? ? X]. apply X. now left.
  - eapply Permutation_trans; [now apply IH1|]. apply IH2. now apply (perm_keys _ _ P1).
Qed.

Definition good (s : session) : Prop := NoDup (map fst (se_instances s)).
Definition alike {A} (x y : effect session A) : Prop :=
  reordered (fst (fst x)) (fst (fst y)) /\ snd (fst x) = snd (fst y) /\ snd x = snd y.

Lemma reordered_refl s : reordered s s.
Proof. split; [reflexivity|]. split; [reflexivity|]. apply Permutation_refl. Qed.
Lemma reordered_sym s t : reordered s t -> reordered t s.
Proof. intros (A & B & D). split; [auto|]. split; [auto|]. now apply Permutation_sym. Qed.
Lemma reordered_trans s t u : reordered s t -> reordered t u -> reordered s u.
Proof. intros (A & B & D) (A' & B' & D'). split; [congruence|]. split; [congruence|]. eapply Permutation_trans; eassumption. Qed.
Lemma reordered_put s1 s2 t i : good s1 -> reordered s1 s2 -> reordered (put s1 t i) (put s2 t i).
Proof. intros G (A & B & D). split; [exact A|]. split; [exact B|]. cbn. now apply perm_set. Qed.
Lemma reordered_get s1 s2 t : good s1 -> reordered s1 s2 -> get_inst t (se_instances s2) = get_inst t (se_instances s1).
Proof. intros G (_ & _ & D). symmetry. now apply perm_get. Qed.
Lemma reordered_entry s1 s2 t : good s1 -> reordered s1 s2 -> entry t (se_instances s2) = entry t (se_instances s1).
Proof. intros G R. unfold entry. now rewrite (reordered_get _ _ t G R). Qed.
Lemma good_put s t i : good s -> good (put s t i).
Proof. intros G. apply nodup_set. exact G. Qed.

Lemma alike_same {A} s1 s2 out (r : res A) : reordered s1 s2 -> alike (s1, out, r) (s2, out, r).
Proof. intros R. split; [exact R|]. split; reflexivity. Qed.
Lemma alike_sessions s1 s2 out1 out2 {A} (r1 r2 : res A) : alike (s1, out1, r1) (s2, out2, r2) ->
  reordered s1 s2 /\ out1 = out2 /\ r1 = r2.
Proof. auto. Qed.

Lemma forallb_perm {A} (f : A -> bool) l1 l2 : Permutation l1 l2 -> forallb f l1 = forallb f l2.
Proof.
  intros P. induction P as [|x l l' P IH|x y l|l l' l'' P1 IH1 P2 IH2]; cbn [forallb]; try congruence.
  destruct (f x), (f y); reflexivity.
Qed.
Lemma existsb_perm {A} (f : A -> bool) l1 l2 : Permutation l1 l2 -> existsb f l1 = existsb f l2.
Proof.
  intros P. induction P as [|x l l' P IH|x y l|l l' l'' P1 IH1 P2 IH2]; cbn [existsb]; try congruence.
  destruct (f x), (f y); reflexivity.
Qed.
Lemma filter_perm {A} (f : A -> bool) l1 l2 : Permutation l1 l2 -> Permutation (filter f l1) (filter f l2).
Proof.
  intros P. induction P as [|x l l' P IH|x y l|l l' l'' P1 IH1 P2 IH2]; cbn [filter].
  - constructor.
  - destruct (f x); [now constructor|exact IH].
  - destruct (f x), (f y); try apply perm_swap; apply Permutation_refl.
  - eapply Permutation_trans; eassumption.
Qed.
Lemma has_sessions_order s1 s2 : reordered s1 s2 -> has_sessions s2 = has_sessions s1.
Proof. intros (_ & _ & P). unfold has_sessions. now rewrite (forallb_perm _ _ _ P), (existsb_perm _ _ _ P). Qed.
Lemma query_order s1 s2 : reordered s1 s2 -> query s2 = query s1.
Proof. intros (D & _). unfold query. now rewrite D. Qed.

Lemma on_entry_order {A} s1 s2 t (f : instance -> effect instance A) : good s1 -> reordered s1 s2 ->
  alike (on_entry s1 t f) (on_entry s2 t f).
Proof.
  intros G R. unfold on_entry. rewrite (reordered_entry _ _ t G R). destruct (f _) as [[i o] [x|x|]]; apply alike_same; try assumption; now apply reordered_put.
Qed.
Lemma on_instance_order {A} s1 s2 t (f : instance -> effect instance A) : good s1 -> reordered s1 s2 ->
  alike (on_instance s1 t f) (on_instance s2 t f).
Proof.
  intros G R. unfold on_instance. rewrite (reordered_get _ _ t G R). destruct (get_inst t _) as [i0|]; [|now apply alike_same].
  destruct (f _) as [[i o] [x|x|]]; apply alike_same; try assumption; now apply reordered_put.
Qed.

Section WithCrypto.
Context (C : Crypto).

Lemma deliver_order s1 s2 out c : reordered s1 s2 -> alike (deliver_text s1 out c) (deliver_text s2 out c).
Proof.
  intros R. unfold deliver_text. rewrite (has_sessions_order _ _ R), (proj1 R). destruct (has_sessions s1); now apply alike_same.
Qed.
Lemma encoded_order e s1 s2 em : good s1 -> reordered s1 s2 -> alike (receive_encoded C e s1 em) (receive_encoded C e s2 em).
Proof.
  intros G R. unfold receive_encoded. cbv zeta. rewrite (reordered_get _ _ 0 G R), (proj1 R).
  destruct (em_sender em =? 0); [now apply alike_same|].
  destruct (verify_header _ _) as [u|x|]; [|now apply alike_same..].
  destruct (_ || _); [now apply alike_same|].
  destruct (em_version em); try (now apply on_entry_order); destruct (em_message em); try (now apply on_entry_order).
  - destruct (get_inst 0 _) as [z|]; [|now apply alike_same]. destruct (transfer_ake_context z); try (now apply on_entry_order). now apply alike_same.
  - destruct (get_inst 0 _) as [z|]; [|now apply alike_same]. destruct (transfer_dake_context z); try (now apply on_entry_order). now apply alike_same.
Qed.
Lemma initiate_order e s1 s2 v t : good s1 -> reordered s1 s2 -> alike (initiate C e s1 v t) (initiate C e s2 v t).
Proof. intros G R. unfold initiate. rewrite (proj1 R). now apply on_entry_order. Qed.

Lemma message_order e s1 s2 p : good s1 -> reordered s1 s2 -> alike (receive_message C e s1 p) (receive_message C e s2 p).
Proof.
  intros G R. unfold receive_message. cbv zeta. rewrite (query_order _ _ R), (proj1 R).
  destruct (parse C p) as [[t|t|vs t|vs|em]|x|]; try (now apply alike_same).
  - destruct (error_start_ake _); [|now apply alike_same]. destruct (query s1); now apply alike_same.
  - now apply deliver_order.
  - destruct (if whitespace_start_ake _ then _ else _) as [v|]; [|now apply deliver_order].
    pose proof (initiate_order e _ _ v 0 G R) as I.
    destruct (initiate C e s1 v 0) as [[s1' o1] r1], (initiate C e s2 v 0) as [[s2' o2] r2].
    apply alike_sessions in I. destruct I as (R' & <- & <-). destruct r1; [now apply deliver_order|now apply alike_same..].
  - destruct (select_version _ vs) as [v|]; [|now apply alike_same].
    pose proof (initiate_order e _ _ v 0 G R) as I.
    destruct (initiate C e s1 v 0) as [[s1' o1] r1], (initiate C e s2 v 0) as [[s2' o2] r2].
    apply alike_sessions in I. destruct I as (R' & <- & <-). destruct r1; now apply alike_same.
  - now apply encoded_order.
Qed.
Lemma receive_order e s1 s2 p : good s1 -> reordered s1 s2 -> alike (receive C e s1 p) (receive C e s2 p).
Proof.
  intros G R. unfold receive. cbv zeta. rewrite (proj1 R).
  destruct (otr_disabled _); [now apply alike_same|]. destruct (match_fragment p); [|now apply message_order].
  destruct (parse_fragment p) as [[f|]|x|]; try (now apply alike_same).
  destruct (negb (verify_fragment f)); [now apply alike_same|].
  destruct (_ && _); [now apply alike_same|].
  rewrite (reordered_entry _ _ (fr_sender f) G R). destruct (assemble _ f) as [a q].
  set (i := set_assembler (entry (fr_sender f) (se_instances s1)) a).
  pose proof (reordered_put _ _ (fr_sender f) i G R) as R'.
  destruct q as [b|[]|]; try (now apply alike_same). destruct (match_fragment b); [now apply alike_same|].
  pose proof (message_order e _ _ b (good_put s1 (fr_sender f) i G) R') as M.
  destruct (receive_message C e (put s1 _ i) b) as [[s1' o1] r1], (receive_message C e (put s2 _ i) b) as [[s2' o2] r2].
  apply alike_sessions in M. destruct M as (R2 & <- & <-). destruct r1; now apply alike_same.
Qed.
Lemma send_order e s1 s2 t c : good s1 -> reordered s1 s2 -> alike (send C e s1 t c) (send C e s2 t c).
Proof.
  intros G R. unfold send. cbv zeta. rewrite (query_order _ _ R), (reordered_get _ _ t G R), (proj1 R), (proj1 (proj2 R)).
  destruct (otr_disabled _); [now apply alike_same|]. destruct (get_inst t _) as [i|]; [|now apply alike_same].
  destruct (_ && _); [destruct (query s1); now apply alike_same|].
  destruct (inst_send C _ e i _ c) as [[i' tg] r]. destruct r; apply alike_same; try assumption;
    (split; [reflexivity|]; split; [reflexivity|]; cbn; apply perm_set; [exact (proj2 (proj2 R))|exact G]).
Qed.

(** ** Expiry *)

Definition expires (d : details) (es : N -> env) (timeout : N) (x : N * instance) (y : (N * instance) * list bytes) : Prop :=
  fst (fst y) = fst x /\ inst_expire C d (es (fst x)) (snd x) timeout = (snd (fst y), snd y, Ok tt).
Lemma expire_all_map d es timeout l : forall l' out, expire_all C d es timeout l = (l', out, Ok tt) <->
  exists ys, Forall2 (expires d es timeout) l ys /\ l' = map fst ys /\ out = concat (map snd ys).
Proof.
  induction l as [|[t i] l IH]; intros l' out; cbn [expire_all].
  - split.
    + intros H. apply pair3 in H. destruct H as (<- & <- & _). exists []. auto.
    + intros (ys & F & -> & ->). now inversion F.
  - destruct (inst_expire C d (es t) i timeout) as [[i' o] r] eqn:E. split.
    + destruct r as [[]|x|]; intros H; [|apply pair3 in H; destruct H as (_ & _ & H); discriminate..].
      destruct (expire_all C d es timeout l) as [[l1 o1] r1]. apply pair3 in H. destruct H as (<- & <- & ->).
      destruct (proj1 (IH _ _) eq_refl) as (ys & F & -> & ->). exists (((t, i'), o) :: ys).
      split; [constructor; [split; [reflexivity|exact E]|exact F]|]. auto.
    + intros (ys & F & -> & ->). inversion F as [|? [[t' i''] o''] ? ys' (T & X) F']. subst. cbn [fst snd] in T, X. subst t'.
      rewrite E in X. injection X as <- <- ->.
      assert (EQ : expire_all C d es timeout l = (map fst ys', concat (map snd ys'), Ok tt)) by (apply IH; eauto).
      rewrite EQ. reflexivity.
Qed.
Lemma expire_order es s1 s2 timeout s1' out1 r : reordered s1 s2 -> expire C es s1 timeout = (s1', out1, r) ->
  exists s2' out2, expire C es s2 timeout = (s2', out2, r) /\ reordered s1' s2' /\ mixed out1 out2.
Proof.
  intros R E.
  assert (OK : forall s t s' out, reordered s t -> expire C es s timeout = (s', out, Ok tt) ->
    exists t' out', expire C es t timeout = (t', out', Ok tt) /\ reordered s' t' /\ mixed out out').
  { clear. intros s t s' out (D & T & P) E. unfold expire in *. rewrite D.
    destruct (expire_all C (se_details s) es timeout (se_instances s)) as [[l o] x] eqn:X.
    assert (x = Ok tt /\ s' = with_instances s l /\ out = o) as (-> & -> & ->).
    { destruct x as [[]|x|]; apply pair3 in E; destruct E as (<- & <- & E); auto; discriminate. }
    apply expire_all_map in X. destruct X as (ys & F & -> & ->).
    destruct (Permutation_Forall2 P F) as (zs & PZ & FZ).
    assert (EQ : expire_all C (se_details s) es timeout (se_instances t) = (map fst zs, concat (map snd zs), Ok tt)) by (apply expire_all_map; eauto).
    rewrite EQ. eexists _, _. split; [reflexivity|]. split.
    - split; [exact D|]. split; [exact T|]. cbn. now apply Permutation_map.
    - exists (map snd ys), (map snd zs). split; [reflexivity|]. split; [reflexivity|]. now apply Permutation_map. }
  destruct (expire C es s2 timeout) as [[s2' out2] r2] eqn:E2. destruct r as [[]|x|].
  - destruct (OK _ _ _ _ R E) as (t' & out' & E' & RR & M). rewrite E2 in E'. injection E' as <- <- ->. eauto.
  - exfalso. now apply expire_total in E.
  - destruct r2 as [[]|x|].
    + destruct (OK _ _ _ _ (reordered_sym _ _ R) E2) as (t' & out' & E' & _). rewrite E in E'. discriminate.
    + exfalso. now apply expire_total in E2.
    + exists s2', out2. split; [reflexivity|]. unfold expire in E, E2.
      destruct (expire_all C (se_details s1) es timeout (se_instances s1)) as [[l o] x].
      destruct (expire_all C (se_details s2) es timeout (se_instances s2)) as [[l2 o2] x2].
      destruct x; try discriminate. destruct x2; try discriminate. injection E as <- <-. injection E2 as <- <-.
      split; [exact R|]. exists [], []. split; [reflexivity|]. split; [reflexivity|constructor].
Qed.

(** ** Calls and histories *)

Lemma call_order es s1 s2 o s1' out1 r : good s1 -> reordered s1 s2 -> call C es s1 o = (s1', out1, r) ->
  exists s2' out2, call C es s2 o = (s2', out2, r) /\ reordered s1' s2' /\
    match o with OpExpire _ => mixed out1 out2 | _ => out1 = out2 end.
Proof.
  intros G R H.
  assert (AL : forall A (g : A -> answer) x y, alike x y -> answering g x = (s1', out1, r) ->
    exists s2' out2, answering g y = (s2', out2, r) /\ reordered s1' s2' /\ out1 = out2).
  { intros A g [[s o1] r1] [[s' o2] r2] AX E. apply alike_sessions in AX. destruct AX as (RR & <- & <-).
    cbn [answering] in E |- *. injection E as <- <- <-. eauto. }
  destruct o; cbn [call] in H |- *; try (eapply AL; [|exact H]).
  - now apply receive_order.
  - now apply send_order.
  - now apply initiate_order.
  - unfold end_session. rewrite (proj1 R). now apply on_instance_order.
  - unfold ses_query. rewrite (query_order _ _ R). destruct (query s1); now apply alike_same.
  - unfold start_smp. rewrite (proj1 R). now apply on_instance_order.
  - unfold abort_smp. rewrite (proj1 R). now apply on_instance_order.
  - destruct (expire C es s1 timeout) as [[s o] x] eqn:E. cbn [answering] in H. injection H as <- <- <-.
    destruct (expire_order _ _ _ _ _ _ _ R E) as (s2' & out2 & E2 & R2 & M). rewrite E2. exists s2', out2. auto.
Qed.

Lemma run_shuffled s0 h s : run C s0 h s -> shuffled C s0 h s.
Proof. intros H. induction H as [|h s es o s' out r H IH CA NP]; [constructor|]. eapply shuffled_call; eassumption. Qed.
Theorem shuffled_history d h s : shuffled C (session_new d) h s ->
  exists h' s', history C d h' s' /\ Forall2 same_event h h' /\ reordered s' s.
Proof.
  intros H. induction H as [|h s es o s1 out r H IH CA NP|h s s1 H IH R].
  - exists [], (session_new d). split; [constructor|]. split; [constructor|apply reordered_refl].
  - destruct IH as (h' & s' & HI & F & R).
    assert (G : good s') by (apply (si_nodup s'); exact (proj1 (history_inv _ _ _ _ HI))).
    assert (G2 : good s) by (eapply perm_keys; [exact (proj2 (proj2 R))|exact G]).
    destruct (call_order _ _ _ _ _ _ _ G2 (reordered_sym _ _ R) CA) as (s2 & out2 & CA2 & R2 & O).
    exists (h' ++ [mkEvent o out2 r]), s2. split; [eapply run_call; eassumption|]. split; [|now apply reordered_sym].
    apply Forall2_app; [exact F|]. constructor; [|constructor]. split; [reflexivity|]. split; [reflexivity|]. exact O.
  - destruct IH as (h' & s' & HI & F & R'). exists h', s'. split; [exact HI|]. split; [exact F|]. eapply reordered_trans; eassumption.
Qed.


(** ** Accounts *)

Definition pair_alike (x y : bytes * session) : Prop := fst y = fst x /\ reordered (snd x) (snd y).
Definition good_sessions (l : list (bytes * session)) : Prop := NoDup (map fst l) /\ forall x s, In (x, s) l -> good s.

Lemma perm_addresses (l1 l2 : list (bytes * session)) : Permutation l1 l2 -> NoDup (map fst l1) -> NoDup (map fst l2).
Proof. intros P. apply Permutation_NoDup. now apply Permutation_map. Qed.
Lemma perm_find x l1 l2 : Permutation l1 l2 -> NoDup (map fst l1) -> find_session x l2 = find_session x l1.
Proof.
  intros P ND. pose proof (perm_addresses _ _ P ND) as ND2. destruct (find_session x l1) as [s|] eqn:E1.
  - apply find_in in E1. apply in_find; [exact ND2|]. eapply Permutation_in; eassumption.
  - destruct (find_session x l2) as [s|] eqn:E2; [|reflexivity]. apply find_in in E2.
    apply (Permutation_in _ (Permutation_sym P)) in E2. apply in_find in E2; [congruence|exact ND].
Qed.
Lemma perm_store x s l1 l2 : Permutation l1 l2 -> NoDup (map fst l1) -> Permutation (store_session x s l1) (store_session x s l2).
Proof.
  intros P. induction P as [|[k j] l l' P IH|[k j] [k' j'] l|l l' l'' P1 IH1 P2 IH2]; intros ND.
  - constructor; constructor.
  - cbn [store_session]. destruct (bytes_eqb k x); [now constructor|]. constructor. apply IH. now inversion ND.
  - cbn [store_session]. destruct (bytes_eqb k x) eqn:N1, (bytes_eqb k' x) eqn:N2; try (apply perm_swap).
    exfalso. apply bytes_eqb_eq in N1. apply bytes_eqb_eq in N2. subst. inversion ND as [|? ? X]. apply X. now left.
  - eapply Permutation_trans; [now apply IH1|]. apply IH2. now apply (perm_addresses _ _ P1).
Qed.
Lemma alike_find x l1 l2 : Forall2 pair_alike l1 l2 ->
  match find_session x l1, find_session x l2 with
  | Some s1, Some s2 => reordered s1 s2
  | None, None => True
  | _, _ => False
  end.
Proof.
  intros F. induction F as [|[a s] [b t] l l' (A & R) F IH]; cbn [find_session]; [exact I|]. cbn [fst snd] in A, R. subst b.
  destruct (bytes_eqb a x); [exact R|exact IH].
Qed.
Lemma alike_store x s1 s2 l1 l2 : reordered s1 s2 -> Forall2 pair_alike l1 l2 -> Forall2 pair_alike (store_session x s1 l1) (store_session x s2 l2).
Proof.
  intros R F. induction F as [|[a s] [b t] l l' (A & R') F IH]; cbn [store_session]; [repeat constructor; apply R|]. cbn [fst snd] in A, R'. subst b.
  destruct (bytes_eqb a x); constructor; try assumption; split; auto.
Qed.

Definition sexpires (es : bytes -> N -> env) (timeout : N) (x : bytes * session) (y : (bytes * session) * list bytes) : Prop :=
  fst (fst y) = fst x /\ expire C (es (fst x)) (snd x) timeout = (snd (fst y), snd y, Ok tt).
Lemma expire_sessions_map es timeout l : forall l' out, expire_sessions C es timeout l = (l', out, Ok tt) <->
  exists ys, Forall2 (sexpires es timeout) l ys /\ l' = map fst ys /\ out = concat (map snd ys).
Proof.
  induction l as [|[t i] l IH]; intros l' out; cbn [expire_sessions].
  - split.
    + intros H. apply pair3 in H. destruct H as (<- & <- & _). exists []. auto.
    + intros (ys & F & -> & ->). now inversion F.
  - destruct (expire C (es t) i timeout) as [[i' o] r] eqn:E. split.
    + destruct r as [[]|x|]; intros H; [|apply pair3 in H; destruct H as (_ & _ & H); discriminate..].
      destruct (expire_sessions C es timeout l) as [[l1 o1] r1]. apply pair3 in H. destruct H as (<- & <- & ->).
      destruct (proj1 (IH _ _) eq_refl) as (ys & F & -> & ->). exists (((t, i'), o) :: ys).
      split; [constructor; [split; [reflexivity|exact E]|exact F]|]. auto.
    + intros (ys & F & -> & ->). inversion F as [|? [[t' i''] o''] ? ys' (T & X) F']. subst. cbn [fst snd] in T, X. subst t'.
      rewrite E in X. injection X as <- <- ->.
      assert (EQ : expire_sessions C es timeout l = (map fst ys', concat (map snd ys'), Ok tt)) by (apply IH; eauto).
      rewrite EQ. reflexivity.
Qed.
Lemma expire_sessions_total es timeout l : forall l' out r, expire_sessions C es timeout l = (l', out, r) -> r <> Panic -> r = Ok tt.
Proof.
  induction l as [|[t i] l IH]; intros l' out r H NP; cbn [expire_sessions] in H.
  - injection H as _ _ <-. reflexivity.
  - destruct (expire C (es t) i timeout) as [[i' o] q] eqn:E. destruct q as [[]|x|].
    + destruct (expire_sessions C es timeout l) as [[l1 o1] r1]. apply pair3 in H. destruct H as (_ & _ & ->). now apply (IH l1 o1).
    + exfalso. apply expire_total in E; discriminate.
    + apply pair3 in H. destruct H as (_ & _ & <-). now destruct NP.
Qed.
(* the sessions of the second list are those of the first *)
Lemma expire_alike es timeout l1 l2 ys : Forall2 pair_alike l1 l2 -> Forall2 (sexpires es timeout) l1 ys ->
  exists zs bs cs, Forall2 (sexpires es timeout) l2 zs /\ Forall2 pair_alike (map fst ys) (map fst zs) /\
    Forall2 (fun y b => snd y = concat b) ys bs /\ concat (map snd zs) = concat (concat cs) /\ Permutation (concat bs) (concat cs).
Proof.
  intros F. revert ys. induction F as [|[a s] [b t] l l' (A & R) F IH]; intros ys FY.
  - inversion FY. exists [], [], []. repeat split; constructor.
  - inversion FY as [|? [[a' s'] o] ? ys' (T & X) FY']. subst. cbn [fst snd] in A, R, T, X. subst.
    destruct (IH _ FY') as (zs & bs & cs & FZ & FA & FB & EC & PB).
    destruct (expire_order _ _ _ _ _ _ _ R X) as (t' & o2 & E2 & R2 & (b1 & b2 & -> & -> & P)).
    exists (((a, t'), concat b2) :: zs), (b1 :: bs), (b2 :: cs).
    split; [constructor; [split; [reflexivity|exact E2]|exact FZ]|].
    split; [constructor; [split; [reflexivity|exact R2]|exact FA]|].
    split; [constructor; [reflexivity|exact FB]|]. split.
    + cbn [map snd concat]. now rewrite concat_app, EC.
    + cbn [concat]. now apply Permutation_app.
Qed.
Lemma concat_perm {A} (l1 l2 : list (list A)) : Permutation l1 l2 -> Permutation (concat l1) (concat l2).
Proof.
  intros P. induction P as [|x l l' P IH|x y l|l l' l'' P1 IH1 P2 IH2]; cbn [concat].
  - constructor.
  - now apply Permutation_app_head.
  - rewrite !app_assoc. apply Permutation_app_tail, Permutation_app_comm.
  - eapply Permutation_trans; eassumption.
Qed.
Lemma expire_sessions_order es timeout l1 l l2 l1' out1 : Permutation l1 l -> Forall2 pair_alike l l2 ->
  expire_sessions C es timeout l1 = (l1', out1, Ok tt) ->
  exists l' l2' out2, expire_sessions C es timeout l2 = (l2', out2, Ok tt) /\ Permutation l1' l' /\ Forall2 pair_alike l' l2' /\ mixed out1 out2.
Proof.
  intros P F E. apply expire_sessions_map in E. destruct E as (ys & FY & -> & ->).
  destruct (Permutation_Forall2 P FY) as (ys2 & PY & FY2).
  destruct (expire_alike _ _ _ _ _ F FY2) as (zs & bs & cs & FZ & FA & FB & EC & PB).
  exists (map fst ys2), (map fst zs), (concat (map snd zs)). split; [apply expire_sessions_map; eauto|].
  split; [now apply Permutation_map|]. split; [exact FA|].
  destruct (Permutation_Forall2 (Permutation_sym PY) FB) as (bs1 & PB1 & FB1).
  exists (concat bs1), (concat cs). split.
  - clear - FB1. induction FB1 as [|y b ys bs E F IH]; [reflexivity|]. cbn [map concat]. now rewrite E, IH, concat_app.
  - split; [exact EC|]. eapply Permutation_trans; [|exact PB]. apply concat_perm. now apply Permutation_sym.
Qed.

Lemma pair_alike_refl l : Forall2 pair_alike l l.
Proof. induction l; constructor; [|assumption]. split; [reflexivity|apply reordered_refl]. Qed.
Lemma reordered_account_refl a : reordered_account a a.
Proof. repeat (split; [reflexivity|]). exists (ac_sessions a). split; [apply Permutation_refl|apply pair_alike_refl]. Qed.
Lemma pair_alike_sym l1 l2 : Forall2 pair_alike l1 l2 -> Forall2 pair_alike l2 l1.
Proof. intros F. induction F as [|x y l l' (A & R) F IH]; constructor; [|assumption]. split; [auto|now apply reordered_sym]. Qed.
Lemma pair_alike_trans l1 l2 l3 : Forall2 pair_alike l1 l2 -> Forall2 pair_alike l2 l3 -> Forall2 pair_alike l1 l3.
Proof.
  intros F. revert l3. induction F as [|x y l l' (A & R) F IH]; intros l3 G; inversion G as [|? z ? l3' (A' & R') G']; subst; constructor.
  - split; [congruence|eapply reordered_trans; eassumption].
  - now apply IH.
Qed.
Lemma reordered_account_sym a b : reordered_account a b -> reordered_account b a.
Proof.
  intros (A1 & A2 & A3 & A4 & l & P & F). repeat (split; [auto|]).
  destruct (Permutation_Forall2 (Permutation_sym P) F) as (l' & P' & F'). exists l'. split; [exact P'|]. now apply pair_alike_sym.
Qed.
Lemma reordered_account_trans a b c : reordered_account a b -> reordered_account b c -> reordered_account a c.
Proof.
  intros (A1 & A2 & A3 & A4 & l & P & F) (B1 & B2 & B3 & B4 & l' & P' & F'). repeat (split; [congruence|]).
  destruct (Permutation_Forall2 P' (pair_alike_sym _ _ F)) as (l2 & P2 & F2). exists l2. split.
  - eapply Permutation_trans; eassumption.
  - eapply pair_alike_trans; [|exact F']. now apply pair_alike_sym.
Qed.

Lemma account_session_order a1 a2 x : NoDup (map fst (ac_sessions a1)) -> reordered_account a1 a2 ->
  reordered (account_session a1 x) (account_session a2 x).
Proof.
  intros ND (A1 & A2 & A3 & _ & l & P & F). unfold account_session, details_for. rewrite A1, A2, A3.
  rewrite <- (perm_find x _ _ P ND). pose proof (alike_find x _ _ F) as X.
  destruct (find_session x l), (find_session x (ac_sessions a2)); try contradiction; [exact X|apply reordered_refl].
Qed.
Lemma account_call_order es a1 a2 o a1' out1 r : NoDup (map fst (ac_sessions a1)) -> (forall x, good (account_session a1 x)) ->
  reordered_account a1 a2 -> account_call C es a1 o = (a1', out1, r) -> r <> Panic ->
  exists a2' out2, account_call C es a2 o = (a2', out2, r) /\ reordered_account a1' a2' /\
    match o with AcExpire _ | AcCall _ (OpExpire _) => mixed out1 out2 | _ => out1 = out2 end.
Proof.
  intros ND G R H NP. destruct o as [x o|timeout]; cbn [account_call] in H |- *.
  - unfold on_session in *. destruct (call C (es x) (account_session a1 x) o) as [[s1' q] r'] eqn:CL. injection H as <- -> ->.
    destruct (call_order _ _ _ _ _ _ _ (G x) (account_session_order _ _ x ND R) CL) as (s2' & out2 & CL2 & R2 & O).
    rewrite CL2. eexists _, out2. split; [reflexivity|]. split.
    + destruct R as (A1 & A2 & A3 & A4 & l & P & F). repeat (split; [assumption|]). cbn.
      exists (store_session x s1' l). split; [now apply perm_store|now apply alike_store].
    + destruct o; exact O.
  - unfold account_expire in *. destruct (expire_sessions C es timeout (ac_sessions a1)) as [[l1' q] r'] eqn:X. injection H as <- -> <-.
    assert (r' = Ok tt) as -> by (eapply expire_sessions_total; [exact X|intros ->; now destruct NP]).
    destruct R as (A1 & A2 & A3 & A4 & l & P & F).
    destruct (expire_sessions_order _ _ _ _ _ _ _ P F X) as (l' & l2' & out2 & X2 & P' & F' & M). rewrite X2.
    eexists _, out2. split; [reflexivity|]. split; [|exact M]. repeat (split; [assumption|]). cbn. eauto.
Qed.

Theorem shuffled_account_history a0 h a : ac_sessions a0 = [] -> shuffled_account C a0 h a ->
  exists h' a', account_run C a0 h' a' /\ Forall2 same_account_event h h' /\ reordered_account a' a.
Proof.
  intros E0 H. induction H as [|h s es o s1 out r H IH CA NP|h s s1 H IH R].
  - exists [], a0. split; [constructor|]. split; [constructor|apply reordered_account_refl].
  - destruct IH as (h' & s' & HI & F & R).
    destruct (account_inv _ _ _ _ HI E0) as (_ & ND & HH).
    assert (G : forall x, good (account_session s' x)).
    { intros x. destruct (HH x) as (hs & _ & HI' & _). apply (si_nodup (account_session s' x)). exact (proj1 (history_inv _ _ _ _ HI')). }
    assert (ND2 : NoDup (map fst (ac_sessions s))).
    { destruct R as (_ & _ & _ & _ & l & P & FF). pose proof (perm_addresses _ _ P ND) as NL.
      assert (map fst (ac_sessions s) = map fst l) as ->; [|exact NL].
      clear - FF. induction FF as [|x y l l' (A & _) FF IH]; [reflexivity|]. cbn [map]. now rewrite A, IH. }
    assert (G2 : forall x, good (account_session s x)).
    { intros x. pose proof (account_session_order _ _ x ND R) as RX. eapply perm_keys; [exact (proj2 (proj2 RX))|exact (G x)]. }
    destruct (account_call_order _ _ _ _ _ _ _ ND2 G2 (reordered_account_sym _ _ R) CA NP) as (s2 & out2 & CA2 & R2 & O).
    exists (h' ++ [mkAccountEvent o out2 r]), s2. split; [eapply account_run_call; eassumption|]. split; [|now apply reordered_account_sym].
    apply Forall2_app; [exact F|]. constructor; [|constructor]. split; [reflexivity|]. split; [reflexivity|]. exact O.
  - destruct IH as (h' & s' & HI & F & R'). exists h', s'. split; [exact HI|]. split; [exact F|]. eapply reordered_account_trans; eassumption.
Qed.

End WithCrypto.
