(* What the calls of a session do to the parts of messages that it keeps. *)
From Verif Require Import Base BaseLemmas Types Crypto Encoding Messages Fragment KeyManager DataV3 Ratchet DataV4 AKE DAKE SMP SMP4 Protocol Session
  SpecSession SessionProofs SessionInvProofs SessionSendProofs SessionHistProofs StartProofs CrashSessionProofs NetProofs SpecParts PartsProofs.
From Verif Require SpecFragment FragmentProofs FragmentLemmas AssemblerProofs.
From Coq Require Import Lia.
Local Open Scope N_scope.
Import SpecSession.

Definition asm (t : N) (s : session) : assembler := in_assembler (entry t (se_instances s)).
Definition quiet {A} (i : instance) (x : effect instance A) : Prop := snd x <> Panic -> in_assembler (fst (fst x)) = in_assembler i.

Ltac qleaf := solve [intros _; reflexivity | let X := fresh in intros X; exfalso; apply X; reflexivity].
Ltac qcases := unfold quiet; repeat (qleaf || match goal with |- snd ?x <> _ -> _ => match x with context [match ?b with _ => _ end] =>
  lazymatch b with context [match _ with _ => _ end] => fail | _ => destruct b end end end).

Section WithCrypto.
Context (C : Crypto).

Lemma data3_quiet d e i sd rc m : quiet i (inst_data3 C d e i sd rc m).
Proof.
  destruct i as [r0 a0 st ak dk].
  unfold inst_data3, data_error, smp_finish, inject, set_state. cbn [in_receiver in_assembler in_state in_ake in_dake]. cbv zeta. qcases.
Qed.
Lemma data4_quiet d e i sd rc m : quiet i (inst_data4 C d e i sd rc m).
Proof.
  destruct i as [r0 a0 st ak dk].
  unfold inst_data4, data_error, smp_finish, inject, set_state. cbn [in_receiver in_assembler in_state in_ake in_dake]. cbv zeta. qcases.
Qed.
Lemma reset_quiet d e i : quiet i (inst_reset C d e i).
Proof. unfold inst_reset, injecting. cbv zeta. qcases. Qed.
Lemma start_quiet d e i x q : quiet i (inst_start_smp C d e i x q).
Proof. unfold inst_start_smp, injecting. cbv zeta. qcases. Qed.
Lemma abort_quiet d e i : quiet i (inst_abort_smp C d e i).
Proof. unfold inst_abort_smp, injecting. cbv zeta. qcases. Qed.
Lemma expire_quiet d e i to : quiet i (inst_expire C d e i to).
Proof. unfold inst_expire, injecting. cbv zeta. qcases. Qed.

Lemma handle_asm d e i em i' out r : inst_handle C d e i em = (i', out, r) -> r <> Panic ->
  in_assembler i' = match em_version em with V3 => assembler_cleanup_v3 (in_assembler i) | _ => in_assembler i end.
Proof.
  intros H NP. set (j := match em_version em with V3 => set_assembler i (assembler_cleanup_v3 (in_assembler i)) | _ => i end).
  assert (Q : quiet j (i', out, r)).
  { rewrite <- H. clear. unfold inst_handle. cbv zeta. fold j. subst j. destruct (em_version em); destruct (em_message em); try qleaf.
    all: try apply data3_quiet. all: try apply data4_quiet.
    all: unfold secure, injecting, inject; cbn [bind]; cbv zeta; unfold bind; qcases. }
  specialize (Q NP). cbn [fst snd] in Q. rewrite Q. subst j. destruct (em_version em); reflexivity.
Qed.

Lemma asm_put s t i u : asm u (put s t i) = if t =? u then in_assembler i else asm u s.
Proof. unfold asm. rewrite entry_put_is. now destruct (t =? u). Qed.
Lemma asm_put_same s t i u : in_assembler i = asm t s -> asm u (put s t i) = asm u s.
Proof. intros E. rewrite asm_put. destruct (N.eqb_spec t u) as [->|]; auto. Qed.

Lemma encoded_asm e s em s' out r t : receive_encoded C e s em = (s', out, r) -> r <> Panic ->
  am_unordered (asm t s') = am_unordered (asm t s) /\ (em_sender em <> t -> am_inorder (asm t s') = am_inorder (asm t s)).
Proof.
  intros H NP. apply encoded_split in H; [|assumption].
  destruct H as [(-> & _)|[(-> & _)|(_ & _ & _ & i0 & i' & AD & H & ->)]]; [tauto|tauto|].
  apply adopted_same in AD. destruct AD as (_ & _ & AD). apply handle_asm in H; [|assumption]. rewrite AD in H. rewrite asm_put.
  destruct (N.eqb_spec (em_sender em) t) as [<-|N]; [|auto]. split; [|congruence].
  rewrite H. unfold asm. destruct (em_version em); reflexivity.
Qed.
Lemma message_asm e s b s' out r t : receive_message C e s b = (s', out, r) -> r <> Panic ->
  am_unordered (asm t s') = am_unordered (asm t s) /\
  ((forall em, parse C b = Ok (MsgEncoded em) -> em_sender em <> t) -> am_inorder (asm t s') = am_inorder (asm t s)).
Proof.
  intros H NP. apply message_split in H; [|assumption].
  assert (INI : forall v s1 o1 r1, initiate C e s v 0 = (s1, o1, r1) -> r1 <> Panic -> asm t s1 = asm t s).
  { intros v s1 o1 r1 X NX. apply initiate_inv in X; [|assumption]. destruct X as (i & _ & -> & _ & _ & A). apply asm_put_same. exact A. }
  assert (DEL : forall s1 o c s2 o2 r2, deliver_text s1 o c = (s2, o2, r2) -> r2 <> Panic -> s2 = s1).
  { intros s1 o c s2 o2 r2 X NX. apply deliver_inv in X; [|assumption]. tauto. }
  assert (SAME : asm t s' = asm t s -> am_unordered (asm t s') = am_unordered (asm t s) /\
    ((forall em, parse C b = Ok (MsgEncoded em) -> em_sender em <> t) -> am_inorder (asm t s') = am_inorder (asm t s))).
  { intros ->. split; auto. }
  destruct H as [(x & P & -> & _) | [(c & P & -> & _) | [(c & P & H) | [(vs & c & P & H) | [(vs & P & H) | (em & P & H)]]]]].
  - auto.
  - auto.
  - apply SAME. apply DEL in H; [congruence|assumption].
  - apply SAME. destruct H as [(_ & H) | (_ & v & s1 & r1 & _ & H1 & NP1 & H)].
    + apply DEL in H; [congruence|assumption].
    + apply INI in H1; [|assumption]. destruct H as [(_ & H) | (-> & _)]; [|assumption]. apply DEL in H; [congruence|assumption].
  - apply SAME. destruct H as [(_ & -> & _) | (v & r1 & _ & H1 & H)]; [reflexivity|].
    apply (INI _ _ _ _ H1). destruct H as [((m & ->) & _) | (_ & x & ->)]; congruence.
  - destruct (encoded_asm _ _ _ _ _ _ t H NP) as [A B]. split; [exact A|]. intros N. apply B. now apply N.
Qed.

Definition step3 (st : inorder) (o : option fragment) : inorder := match o with Some f => fst (inorder_assemble st f) | None => st end.
Definition step4 (st : unordered) (o : option fragment) : unordered := match o with Some f => fst (unordered_assemble st f) | None => st end.
Definition part_in (d : details) (v : version) (t : N) (o : op) : option fragment :=
  match o with OpReceive p => part_of d v t p | _ => None end.

Lemma receive_asm e s p s' out r t : receive C e s p = (s', out, r) -> r <> Panic -> enabled (se_details s) ->
  am_unordered (asm t s') = step4 (am_unordered (asm t s)) (part_of (se_details s) V4 t p) /\
  (forall f, part_of (se_details s) V4 t p = Some f -> snd (unordered_assemble (am_unordered (asm t s)) f) <> AsmPanic) /\
  ((forall em, carries C s p em -> em_sender em <> t) ->
   am_inorder (asm t s') = step3 (am_inorder (asm t s)) (part_of (se_details s) V3 t p)).
Proof.
  unfold receive. intros H NP EN. rewrite (enabled_not_disabled _ EN) in H. unfold part_of. destruct (match_fragment p) eqn:MF.
  2:{ destruct (message_asm _ _ _ _ _ _ t H NP) as [A B]. cbn [step3 step4]. split; [exact A|]. split; [discriminate|]. intros N. apply B. intros em PE.
      apply N. exists p. split; [now left|assumption]. }
  destruct (parse_fragment p) as [[f|]|x|] eqn:PF; try (fin3 H; cbn [step3 step4]; split; [reflexivity|split; [discriminate|reflexivity]]).
  destruct (verify_fragment f) eqn:VF; cbn [negb] in H; [|fin3 H; cbn [andb step3 step4]; split; [reflexivity|split; [discriminate|reflexivity]]].
  assert (RX : negb (fr_receiver f =? 0) && negb (fr_receiver f =? de_tag (se_details s)) =
    negb ((fr_receiver f =? 0) || (fr_receiver f =? de_tag (se_details s)))) by (symmetry; apply Bool.negb_orb).
  rewrite RX in H. destruct ((fr_receiver f =? 0) || (fr_receiver f =? de_tag (se_details s))) eqn:RC; cbn [negb] in H.
  2:{ fin3 H. rewrite !Bool.andb_false_r. cbn [step3 step4]. split; [reflexivity|split; [discriminate|reflexivity]]. }
  rewrite !Bool.andb_true_r. cbn [andb].
  destruct (assemble (in_assembler (entry (fr_sender f) (se_instances s))) f) as [a q] eqn:AS.
  set (s1 := put s (fr_sender f) (set_assembler (entry (fr_sender f) (se_instances s)) a)) in *.
  assert (MID : q <> AsmPanic ->
    am_unordered (asm t s1) = step4 (am_unordered (asm t s)) (if (fr_sender f =? t) && version_eqb (fr_version f) V4 then Some f else None) /\
    (forall f0, (if (fr_sender f =? t) && version_eqb (fr_version f) V4 then Some f else None) = Some f0 ->
       snd (unordered_assemble (am_unordered (asm t s)) f0) <> AsmPanic) /\
    am_inorder (asm t s1) = step3 (am_inorder (asm t s)) (if (fr_sender f =? t) && version_eqb (fr_version f) V3 then Some f else None)).
  { intros NQ. unfold s1. rewrite asm_put. destruct (N.eqb_spec (fr_sender f) t) as [<-|N]; cbn [andb]; [|split; [reflexivity|split; [discriminate|reflexivity]]].
    cbn [in_assembler set_assembler]. fold (asm (fr_sender f) s) in AS. unfold assemble in AS.
    destruct (parse_fragment_version _ _ PF) as [V|V]; rewrite V in *; cbn [version_eqb].
    - destruct (inorder_assemble (am_inorder (asm (fr_sender f) s)) f) as [st o] eqn:IA.
      injection AS as <- <-. cbn [step3 step4 am_unordered am_inorder]. rewrite IA. split; [reflexivity|]. split; [discriminate|reflexivity].
    - destruct (unordered_assemble (am_unordered (asm (fr_sender f) s)) f) as [st o] eqn:IA.
      injection AS as <- <-. cbn [step3 step4 am_unordered am_inorder]. rewrite IA. split; [reflexivity|]. split; [|reflexivity].
      intros f0 [= <-]. rewrite IA. exact NQ. }
  destruct q as [b|[]|].
  - destruct MID as (M1 & M2 & M3); [discriminate|]. destruct (match_fragment b) eqn:MB.
    + fin3 H. split; [exact M1|]. split; [exact M2|]. intros _. exact M3.
    + assert (HM : receive_message C e s1 b = (s', out, r)).
      { destruct (receive_message C e s1 b) as [[s2 o2] [m|x|]]; try assumption. fin3 H. congruence. }
      destruct (message_asm _ _ _ _ _ _ t HM NP) as [A B]. rewrite A. split; [exact M1|]. split; [exact M2|]. intros N. rewrite B; [exact M3|].
      intros em PE. apply N. exists b. split; [|assumption]. right. exists f, a. repeat (split; [assumption|]). split; [|auto].
      apply Bool.orb_true_iff in RC. destruct RC as [RC|RC]; apply N.eqb_eq in RC; auto.
  - destruct MID as (M1 & M2 & M3); [discriminate|]. fin3 H. auto.
  - destruct MID as (M1 & M2 & M3); [discriminate|]. fin3 H. auto.
  - destruct MID as (M1 & M2 & M3); [discriminate|]. fin3 H. auto.
  - fin3 H. congruence.
Qed.

Lemma expire_all_asm d es timeout l l' out r t : expire_all C d es timeout l = (l', out, r) -> r <> Panic ->
  in_assembler (entry t l') = in_assembler (entry t l).
Proof.
  revert l' out r. induction l as [|[k i] l IH]; cbn [expire_all]; intros l' out r H NP; [fin3 H; reflexivity|].
  pose proof (expire_quiet d (es k) i timeout) as Q. destruct (inst_expire C d (es k) i timeout) as [[i' o] [u|x|]].
  - destruct (expire_all C d es timeout l) as [[l2 o2] x2] eqn:E. fin3 H. specialize (IH _ _ _ eq_refl NP).
    unfold entry in *. cbn [get_inst]. destruct (k =? t); [|exact IH]. apply Q. discriminate.
  - fin3 H. unfold entry. cbn [get_inst]. destruct (k =? t); [|reflexivity]. apply Q. discriminate.
  - fin3 H. congruence.
Qed.

Lemma call_asm es s o s' out r t : call C es s o = (s', out, r) -> r <> Panic -> enabled (se_details s) ->
  am_unordered (asm t s') = step4 (am_unordered (asm t s)) (part_in (se_details s) V4 t o) /\
  (forall f, part_in (se_details s) V4 t o = Some f -> snd (unordered_assemble (am_unordered (asm t s)) f) <> AsmPanic) /\
  ((forall p em, o = OpReceive p -> carries C s p em -> em_sender em <> t) ->
   am_inorder (asm t s') = step3 (am_inorder (asm t s)) (part_in (se_details s) V3 t o)).
Proof.
  intros H NP EN.
  assert (SAME : asm t s' = asm t s -> part_in (se_details s) V4 t o = None -> part_in (se_details s) V3 t o = None ->
    am_unordered (asm t s') = step4 (am_unordered (asm t s)) (part_in (se_details s) V4 t o) /\
    (forall f, part_in (se_details s) V4 t o = Some f -> snd (unordered_assemble (am_unordered (asm t s)) f) <> AsmPanic) /\
    ((forall p em, o = OpReceive p -> carries C s p em -> em_sender em <> t) ->
     am_inorder (asm t s') = step3 (am_inorder (asm t s)) (part_in (se_details s) V3 t o))).
  { intros -> -> ->. cbn [step3 step4]. split; [reflexivity|]. split; [discriminate|reflexivity]. }
  assert (ONI : forall u (A : Type) (f : instance -> effect instance A) s2 o2 r2, (forall i, quiet i (f i)) ->
    on_instance s u f = (s2, o2, r2) -> r2 <> Panic -> asm t s2 = asm t s).
  { intros u A f s2 o2 r2 Q X NX. apply on_instance_inv in X; [|assumption]. destruct X as [(_ & -> & _)|(i & i' & G & F & ->)]; [reflexivity|].
    apply asm_put_same. specialize (Q i). rewrite F in Q. unfold asm, entry. rewrite G. exact (Q NX). }
  destruct o as [p|u c|v u|u| |u a q|u|to]; cbn [call] in H; apply answering_inv in H; try assumption; destruct H as (r0 & H & _ & NP0).
  - cbn [part_in]. destruct (receive_asm _ _ _ _ _ _ t H NP0 EN) as (A & B & D). split; [exact A|]. split; [exact B|]. intros N. apply D. intros em. now apply N.
  - apply SAME; [|reflexivity..]. apply send_inv in H; [|assumption].
    destruct H as [(_ & -> & _)|(_ & [(_ & -> & _)|(i & G & H)])]; [reflexivity|reflexivity|].
    destruct H as [(_ & _ & -> & _)|(_ & _ & i' & tg & H & ->)]; [reflexivity|]. apply send_moves in H; [|assumption]. destruct H as (_ & _ & H & _).
    change (asm t (mkSession (se_details s) (set_inst u i' (se_instances s)) tg)) with (asm t (put s u i')).
    apply asm_put_same. unfold asm, entry. now rewrite G.
  - apply SAME; [|reflexivity..]. apply initiate_inv in H; [|assumption]. destruct H as (i & _ & -> & _ & _ & A). now apply asm_put_same.
  - apply SAME; [|reflexivity..]. apply (ONI _ _ _ _ _ _ (fun i => reset_quiet _ _ i) H NP0).
  - apply SAME; [|reflexivity..]. unfold ses_query in H. destruct (query s); fin3 H; reflexivity.
  - apply SAME; [|reflexivity..]. apply (ONI _ _ _ _ _ _ (fun i => start_quiet _ _ i _ _) H NP0).
  - apply SAME; [|reflexivity..]. apply (ONI _ _ _ _ _ _ (fun i => abort_quiet _ _ i) H NP0).
  - apply SAME; [|reflexivity..]. unfold expire in H. destruct (expire_all C (se_details s) es to (se_instances s)) as [[l o] x] eqn:E.
    destruct x; fin3 H; try congruence; exact (expire_all_asm _ _ _ _ _ _ _ t E ltac:(discriminate)).
Qed.
End WithCrypto.
