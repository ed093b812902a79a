From Verif Require Import Base BaseLemmas Types Crypto Encoding Messages Fragment KeyManager DataV3 Ratchet DataV4 AKE DAKE SMP SMP4 Protocol Session
  SpecSession SessionInvProofs SpecLongTerm SpecSize SpecPolicy.
From Coq Require Import Lia.
Local Open Scope N_scope.

Section WithCrypto.
Context (C : Crypto) (p : policy).

Definition lift {A} (x : effect session A) : effect session A := (under p (fst (fst x)), snd (fst x), snd x).
Definition repoliced (d : details) : details := mkDetails p (de_tag d) (de_account d) (de_address d).

Lemma po_handle d e i em : inst_handle C (repoliced d) e i em = inst_handle C d e i em.
Proof. reflexivity. Qed.
Lemma po_on_entry {A} s t (f g : instance -> effect instance A) : (forall i, f i = g i) -> on_entry (under p s) t f = lift (on_entry s t g).
Proof. intros H. unfold on_entry. cbn [se_instances under]. rewrite H. destruct (g _) as [[i o] [r| |]]; reflexivity. Qed.
Lemma po_on_instance {A} s t (f g : instance -> effect instance A) : (forall i, f i = g i) -> on_instance (under p s) t f = lift (on_instance s t g).
Proof.
  intros H. unfold on_instance. cbn [se_instances under]. destruct (get_inst t _) as [i|]; [|reflexivity].
  rewrite H. destruct (g _) as [[j o] [r| |]]; reflexivity.
Qed.
Lemma po_initiate e s v t : initiate C e (under p s) v t = lift (initiate C e s v t).
Proof. apply po_on_entry. intros i. reflexivity. Qed.

Section Same.
Context (s : session) (SV : same_versions p (de_policy (se_details s))).

Lemma po_filter vs : filter_versions p vs = filter_versions (de_policy (se_details s)) vs.
Proof. destruct SV as [A B]. unfold filter_versions. rewrite A, B. reflexivity. Qed.
Lemma po_select vs : select_version p vs = select_version (de_policy (se_details s)) vs.
Proof. destruct SV as [A B]. unfold select_version. rewrite A, B. reflexivity. Qed.
Lemma po_disabled : otr_disabled p = otr_disabled (de_policy (se_details s)).
Proof. destruct SV as [A B]. unfold otr_disabled. rewrite A, B. reflexivity. Qed.
Lemma po_query : query (under p s) = query s.
Proof. unfold query. cbn [se_details under de_policy]. rewrite po_filter. reflexivity. Qed.
Lemma po_encoded e em : receive_encoded C e (under p s) em = lift (receive_encoded C e s em).
Proof.
  destruct SV as [A B]. unfold receive_encoded. cbv zeta. cbn [se_details se_instances under de_policy]. rewrite A, B.
  change (verify_header (mkDetails p (de_tag (se_details s)) (de_account (se_details s)) (de_address (se_details s))) em) with (verify_header (se_details s) em).
  destruct (em_sender em =? 0); [reflexivity|]. destruct (verify_header _ _); try reflexivity. destruct (_ || _); [reflexivity|].
  destruct (em_version em), (em_message em); try (apply po_on_entry; intros ?j; apply po_handle).
  - destruct (get_inst 0 _) as [z|]; [|reflexivity]. destruct (transfer_ake_context _); try reflexivity; (apply po_on_entry; intros ?j); [|apply po_handle].
    destruct (adopt_ake_context _ _); try reflexivity.
  - destruct (get_inst 0 _) as [z|]; [|reflexivity]. destruct (transfer_dake_context _); try reflexivity; (apply po_on_entry; intros ?j); [|apply po_handle].
    destruct (adopt_dake_context _ _); try reflexivity.
Qed.
Lemma po_message e b : (forall m, parse C b = Ok m -> match m with MsgError _ | MsgPlaintext _ | MsgTagged _ _ => False | _ => True end) ->
  receive_message C e (under p s) b = lift (receive_message C e s b).
Proof.
  intros H. unfold receive_message. cbv zeta. destruct (parse C b) as [m| |]; try reflexivity. specialize (H m eq_refl).
  destruct m; try contradiction.
  - cbn [se_details under de_policy]. rewrite po_select. destruct (select_version _ _) as [v|]; [|reflexivity]. rewrite po_initiate.
    destruct (initiate C e s v 0) as [[s' o] [r| |]]; reflexivity.
  - apply po_encoded.
Qed.
End Same.

Lemma po_receive e s b : same_versions p (de_policy (se_details s)) -> ~ in_the_clear C s (OpReceive b) -> receive C e (under p s) b = lift (receive C e s b).
Proof.
  intros SV N. unfold receive. cbv zeta. cbn [se_details under de_policy]. rewrite (po_disabled s SV).
  destruct (otr_disabled _); [reflexivity|]. destruct (match_fragment b) eqn:MF.
  - destruct (parse_fragment b) as [[f|]| |] eqn:PF; try reflexivity. destruct (verify_fragment f) eqn:VF; [|reflexivity]. cbn [negb].
    cbn [de_tag se_instances].
    destruct (negb (fr_receiver f =? 0) && negb (fr_receiver f =? de_tag (se_details s))) eqn:R; [reflexivity|].
    destruct (assemble _ f) as [a r] eqn:AS. destruct r as [w|x|]; [|destruct x; reflexivity|reflexivity].
    destruct (match_fragment w) eqn:MW; [reflexivity|].
    match goal with |- context [receive_message C e (put s ?t ?i) w] =>
      pose proof (po_message (put s t i) SV e w) as H end.
    match type of H with _ -> ?x = _ => match goal with |- context [receive_message C e ?y w] => 
      lazymatch y with put s _ _ => fail | _ => change (receive_message C e y w) with x end end end.
    rewrite H; [clear H|].
    + destruct (receive_message C e _ w) as [[s' o] [r| |]]; reflexivity.
    + intros m P. destruct m; try exact I; apply N; cbn; exists w; eexists; (split; [|split; [exact P|exact I]]); right; exists f, a; repeat split; auto;
        apply andb_false_iff in R; destruct R as [R|R]; apply negb_false_iff in R; apply N.eqb_eq in R; auto.
  - apply po_message; [exact SV|]. intros m P. destruct m; try exact I; apply N; cbn; exists b; eexists; (split; [|split; [exact P|exact I]]); left; auto.
Qed.
Lemma po_send e s t c : same_versions p (de_policy (se_details s)) -> ~ in_the_clear C s (OpSend t c) -> send C e (under p s) t c = lift (send C e s t c).
Proof.
  intros SV N. unfold send. cbv zeta. cbn [se_details under de_policy se_instances se_tagged]. rewrite (po_disabled s SV).
  destruct (otr_disabled _); [reflexivity|]. cbn in N. unfold status_of, state_of in N. destruct (get_inst t _) as [i|]; [|reflexivity].
  unfold in_status. assert (X : status_eqb (p_status (in_state i)) Plaintext = false) by (destruct (p_status (in_state i)); [congruence| |]; reflexivity).
  rewrite X, !andb_false_r. unfold inst_send. cbn [de_tag de_policy]. destruct (in_state i) as [|our their k smp|our their k smp|].
  - cbn in N. congruence.
  - cbn [p_prepare]. destruct (encrypt3 C _ _ _ _ _) as [[m k']| |]; try reflexivity. cbn [bind]. unfold payloads. cbn [de_tag].
    match goal with |- context [match ?x with Ok _ => _ | Err _ => _ | Panic => _ end] => destruct x; reflexivity end.
  - cbn [p_prepare]. destruct (encrypt4 C _ _ _ _ _ _ _) as [[m k']| |]; try reflexivity. cbn [bind]. unfold payloads. cbn [de_tag].
    match goal with |- context [match ?x with Ok _ => _ | Err _ => _ | Panic => _ end] => destruct x; reflexivity end.
  - reflexivity.
Qed.
Lemma po_expire_all d es t l : expire_all C (repoliced d) es t l = expire_all C d es t l.
Proof.
  induction l as [|[u i] l IH]; [reflexivity|]. cbn [expire_all]. rewrite IH.
  change (inst_expire C (repoliced d) (es u) i t) with (inst_expire C d (es u) i t). reflexivity.
Qed.
Lemma po_answering {A} f (x : effect session A) : answering f (lift x) = lift (answering f x).
Proof. destruct x as [[a b] c]. reflexivity. Qed.

Lemma po_call es s o : same_versions p (de_policy (se_details s)) -> ~ in_the_clear C s o -> call C es (under p s) o = lift (call C es s o).
Proof.
  intros SV N. destruct o; cbn [call]; rewrite <- po_answering; f_equal.
  - apply po_receive; assumption.
  - apply po_send; assumption.
  - apply po_initiate.
  - apply po_on_instance. reflexivity.
  - unfold ses_query. rewrite (po_query s SV). destruct (query s); reflexivity.
  - apply po_on_instance. reflexivity.
  - apply po_on_instance. reflexivity.
  - unfold expire. cbn [se_details se_instances under].
    pose proof (po_expire_all (se_details s) es timeout (se_instances s)) as X. unfold repoliced in X. rewrite X. clear X.
    destruct (expire_all _ _ _ _ _) as [[l o] [r| |]]; reflexivity.
Qed.
Lemma call_policy es s o s' out r : same_versions p (de_policy (se_details s)) -> ~ in_the_clear C s o ->
  call C es s o = (s', out, r) -> call C es (under p s) o = (under p s', out, r).
Proof. intros SV N E. rewrite (po_call es s o SV N), E. reflexivity. Qed.
Lemma play_policy l : forall s, sinv s -> same_versions p (de_policy (se_details s)) ->
  each C (fun s o => ~ in_the_clear C s o) l s -> crashless C l s -> play C l (under p s) = (fst (play C l s), under p (snd (play C l s))).
Proof.
  induction l as [|[es o] l IH]; intros s I SV E N; [reflexivity|]. cbn in E, N |- *. destruct E as [E1 E], N as [N1 N].
  destruct (call C es s o) as [[s1 out] r] eqn:CE. rewrite (call_policy es s o s1 out r SV E1 CE). cbn in E, N, N1.
  destruct (sinv_call C es s o _ _ _ CE N1 I) as [I1 D1]. rewrite (IH s1 I1); [|rewrite D1; exact SV|exact E|exact N].
  destruct (play C l s1). reflexivity.
Qed.
End WithCrypto.
