(* Combined statements for Properties_Store. *)
From Verif Require Import Base BaseLemmas Types Crypto Encoding Messages Fragment Protocol Session SpecSession SpecStore SessionProofs
  SessionInvProofs SessionHistProofs SessionSendProofs SessionLemmas StartProofs FollowLemmas StoreProofs SpecFragment FragmentProofs.
From Coq Require Import Lia.
Local Open Scope N_scope.
Import SpecSession.

Section WithCrypto.
Context (C : Crypto).

Lemma run_grows s0 h s t : run C s0 h s -> In t (ses_instances s0) -> In t (ses_instances s).
Proof.
  intros R I. induction R as [|h s es o s' out r R IH H NP]; [assumption|]. assert (NZ : t <> 0) by now apply listed in I.
  apply (call_listed C _ _ _ _ _ _ t H NP NZ). now left.
Qed.
Lemma run_listed s0 h s t : run C s0 h s -> t <> 0 -> (In t (ses_instances s) <->
  In t (ses_instances s0) \/ exists h1 ev h2 s1, h = h1 ++ ev :: h2 /\ run C s0 h1 s1 /\ run C s1 (ev :: h2) s /\ introduces C s1 (ev_op ev) t).
Proof.
  intros R NZ. split.
  - induction R as [|h s es o s' out r R IH H NP]; [tauto|].
    intros I. apply (call_listed C _ _ _ _ _ _ t H NP NZ) in I. destruct I as [I|I].
    + apply IH in I. destruct I as [?|(h1 & ev & h2 & s1 & -> & R1 & R2 & I)]; [tauto|]. right.
      exists h1, ev, (h2 ++ [mkEvent o out r]), s1. split; [now rewrite <- app_assoc|]. split; [assumption|]. split; [|assumption].
      apply (run_call C s1 (ev :: h2) s es); assumption.
    + right. exists h, (mkEvent o out r), [], s. split; [reflexivity|]. split; [assumption|]. split; [|assumption].
      apply (run_call C s [] s es); [constructor|assumption|assumption].
  - intros [I|(h1 & ev & h2 & s1 & _ & _ & R2 & I)]; [now apply (run_grows s0 h)|].
    change (ev :: h2) with ([ev] ++ h2) in R2. apply run_app in R2. destruct R2 as (s2 & R2 & R3). apply (run_grows s2 h2); [assumption|].
    apply (run_snoc_inv C s1 [] ev s2) in R2. destruct R2 as (s' & es & R' & H & NP).
    assert (s' = s1) as -> by (inversion R' as [|q]; [reflexivity|]; destruct q; discriminate).
    apply (call_listed C _ _ _ _ _ _ t H NP NZ). now right.
Qed.
Lemma history_listed d h s t : history C d h s -> (In t (ses_instances s) <->
  t <> 0 /\ exists h1 ev h2 s1, h = h1 ++ ev :: h2 /\ history C d h1 s1 /\ run C s1 (ev :: h2) s /\ introduces C s1 (ev_op ev) t).
Proof.
  intros H. destruct (N.eq_dec t 0) as [->|NZ]; [rewrite listed; tauto|].
  rewrite (run_listed _ _ _ t H NZ). cbn [session_new ses_instances se_instances map fst filter N.eqb negb In]. tauto.
Qed.

(** ** Filling the memory *)

(* a first part of two, from client t to anybody *)
Definition opener (t : N) : fragment := mkFragment V3 [x00; x00; x00; x00] t 0 1 2 [x41].
Lemma opener_parsed t : 256 <= t < 4294967296 -> match_fragment (fragment_text (opener t)) = true /\
  parse_fragment (fragment_text (opener t)) = Ok (Some (opener t)) /\ length (fragment_text (opener t)) = 37%nat.
Proof.
  intros T. change (fragment_text (opener t)) with (frag_text (opener t)). split; [apply text_is_fragment|].
  assert (FT : frag_typed (opener t)).
  { unfold frag_typed, opener. cbn [fr_identifier fr_sender fr_receiver fr_part fr_total]. change (2 ^ 32) with 4294967296. repeat split; lia. }
  assert (EN : encodable (opener t)).
  { unfold encodable, SpecWire.legal_tag, otr_version, opener. cbn [fr_version fr_sender fr_receiver fr_part fr_total fr_payload].
    repeat split; try lia; try discriminate; auto. }
  split.
  - apply parse_text; [assumption|assumption|reflexivity|]. constructor; [|constructor]. left. vm_compute. split; discriminate.
  - rewrite frag_text_length; [reflexivity|now left].
Qed.

Lemma opener_stored e s t : enabled (se_details s) -> 256 <= t < 4294967296 -> get_inst t (se_instances s) = None ->
  exists i, receive C e s (fragment_text (opener t)) = (put s t i, [], Ok UMNone).
Proof.
  intros EN T G. apply opener_parsed in T. destruct T as (M & P & _). apply enabled_not_disabled in EN.
  unfold receive. rewrite EN, M, P. change (verify_fragment (opener t)) with true. cbn [negb].
  change (fr_receiver (opener t)) with 0. cbn [N.eqb negb andb]. unfold assemble. change (fr_version (opener t)) with V3. cbv iota.
  unfold inorder_assemble. change (verify_fragment (opener t)) with true. cbn [negb]. change (fr_part (opener t) =? 1) with true. cbv iota zeta beta.
  change (fr_total (opener t)) with 2. cbn [io_last io_total N.eqb Pos.eqb]. change (fr_sender (opener t)) with t. eexists. reflexivity.
Qed.

Definition unfinished (ev : event) : Prop := exists p,
  ev_op ev = OpReceive p /\ length p = 37%nat /\ ev_injected ev = [] /\ ev_result ev = Ok (AnMessage UMNone).

Lemma filled d (e : env) n : enabled d -> N.of_nat n <= 4294967040 -> exists h s, history C d h s /\ length h = n /\ Forall unfinished h /\
  se_details s = d /\ map fst (se_instances s) = 0 :: map (fun k => 256 + N.of_nat k) (seq 0 n).
Proof.
  intros EN. induction n as [|n IH]; intros LE.
  - exists [], (session_new d). split; [constructor|]. auto.
  - destruct IH as (h & s & H & L & F & D & K); [lia|]. set (t := 256 + N.of_nat n).
    assert (G : get_inst t (se_instances s) = None).
    { destruct (get_inst t (se_instances s)) eqn:E; [|reflexivity]. assert (X : In t (map fst (se_instances s))) by (apply in_keys; congruence).
      rewrite K in X. destruct X as [X|X]; [unfold t in X; lia|]. apply in_map_iff in X. destruct X as (k & X & I). apply in_seq in I. unfold t in X. lia. }
    assert (T : 256 <= t < 4294967296) by (unfold t; lia). rewrite <- D in EN. destruct (opener_stored e s t EN T G) as (i & R).
    exists (h ++ [mkEvent (OpReceive (fragment_text (opener t))) [] (Ok (AnMessage UMNone))]), (put s t i).
    split; [apply (run_call C (session_new d) h s (fun _ => e)); [assumption| |discriminate]; cbn [call]; rewrite R; reflexivity|].
    split; [rewrite app_length, L; cbn; lia|]. split.
    + apply Forall_app. split; [assumption|]. constructor; [|constructor]. eexists. split; [reflexivity|]. split; [now apply opener_parsed|]. auto.
    + split; [assumption|]. cbn [put with_instances se_instances]. rewrite keys_set.
      destruct (existsb (N.eqb t) (map fst (se_instances s))) eqn:X.
      { apply existsb_exists in X. destruct X as (u & I & E). apply N.eqb_eq in E. subst u. apply in_keys in I. contradiction. }
      rewrite K. rewrite seq_S, map_app. reflexivity.
Qed.
Lemma fills d (e : env) n : enabled d -> N.of_nat n <= 4294967040 ->
  exists h s, history C d h s /\ length h = n /\ Forall unfinished h /\ length (ses_instances s) = n.
Proof.
  intros EN LE. destruct (filled d e n EN LE) as (h & s & H & L & F & _ & K). exists h, s. repeat (split; [assumption|]).
  unfold ses_instances. rewrite K. cbn [filter N.eqb negb].
  assert (X : forall l, filter (fun t => negb (t =? 0)) (map (fun k => 256 + N.of_nat k) l) = map (fun k => 256 + N.of_nat k) l).
  { induction l as [|k l IH]; [reflexivity|]. cbn [map filter]. rewrite (proj2 (N.eqb_neq _ 0)) by lia. cbn [negb]. now rewrite IH. }
  rewrite X, map_length. apply seq_length.
Qed.

End WithCrypto.
