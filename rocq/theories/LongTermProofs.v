From Verif Require Import Base BaseLemmas Types Crypto Encoding Messages Fragment KeyManager DataV3 Ratchet DataV4 AKE DAKE SMP SMP4 Protocol Session
  SpecSession SpecLongTerm.
From Coq Require Import Lia.
Local Open Scope N_scope.

Section WithCrypto.
Context (C : Crypto).

Lemma smp_host_private e1 e2 : same_but_private e1 e2 -> ev_smp_host e1 = ev_smp_host e2.
Proof.
  intros S. pose proof (sp_dsa _ _ S) as D. pose proof (sp_answer _ _ S) as A. unfold ev_smp_host. rewrite A.
  destruct (ev_dsa e1), (ev_dsa e2); cbn in D; try discriminate D; [injection D as D; rewrite D|]; reflexivity.
Qed.

Section Two.
Context (e1 e2 : env).
(* what both kinds of agreement have in common *)
Context (SZ : ev_message_size e1 = ev_message_size e2) (PR : ev_profile e1 = ev_profile e2) (DH : ev_dh e1 = ev_dh e2) (R : ev_r e1 = ev_r e2)
  (K0 : ev_km0 e1 = ev_km0 e2) (K1 : ev_km1 e1 = ev_km1 e2) (AC : ev_ack e1 = ev_ack e2) (DK : ev_dake e1 = ev_dake e2)
  (SE : ev_send e1 = ev_send e2) (SM : ev_smp e1 = ev_smp e2) (S4 : ev_smp4 e1 = ev_smp4 e2) (FR : ev_fragment e1 = ev_fragment e2).

Lemma two_payloads d t v b : payloads d e1 t v b = payloads d e2 t v b.
Proof. unfold payloads. rewrite SZ, FR. reflexivity. Qed.
Lemma two_inject d i v t m : inject d e1 i v t m = inject d e2 i v t m.
Proof. unfold inject. destruct (negb _); [reflexivity|]. destruct (encode_message _ _ _ _); try reflexivity. cbn. apply two_payloads. Qed.
Lemma two_prepare s t : prepare_tlv C e1 s t = prepare_tlv C e2 s t.
Proof. unfold prepare_tlv. rewrite SE. reflexivity. Qed.
Lemma two_secure d i t m : secure C d e1 i t m = secure C d e2 i t m.
Proof. unfold secure. rewrite K0, K1. reflexivity. Qed.
Lemma two_finish d i0 i t r rep : smp_finish C d e1 i0 i t r rep = smp_finish C d e2 i0 i t r rep.
Proof.
  unfold smp_finish. destruct r as [[?|]| |]; try reflexivity. rewrite two_prepare. destruct (prepare_tlv C e2 _ _) as [[? ?]| |]; try reflexivity.
  rewrite two_inject. reflexivity.
Qed.
Lemma two_dake_initiate st : dake_initiate C (ev_dake_host e1) (ev_dake e1) st = dake_initiate C (ev_dake_host e2) (ev_dake e2) st.
Proof. rewrite DK. unfold dake_initiate, ev_dake_host. cbn [dh_profile]. rewrite PR. reflexivity. Qed.
Lemma two_inst_initiate d i v : inst_initiate C d e1 i v = inst_initiate C d e2 i v.
Proof.
  unfold inst_initiate. destruct v; try reflexivity.
  - rewrite DH, R. destruct (ake_initiate C _ _) as [[? ?]| |]; try reflexivity. rewrite two_inject. reflexivity.
  - rewrite two_dake_initiate. destruct (dake_initiate C _ _ _) as [st [m| |]]; try reflexivity. rewrite two_inject. reflexivity.
Qed.
Lemma two_initiate s v t : initiate C e1 s v t = initiate C e2 s v t.
Proof. unfold initiate, on_entry. rewrite two_inst_initiate. reflexivity. Qed.
Lemma two_reset d i : inst_reset C d e1 i = inst_reset C d e2 i.
Proof.
  unfold inst_reset. rewrite SE. destruct (p_finish C _ _) as [m| |]; try reflexivity. cbv zeta. destruct (status_eqb _ _); [reflexivity|].
  destruct m; [|reflexivity]. rewrite two_inject. reflexivity.
Qed.
Lemma two_expire d i t : inst_expire C d e1 i t = inst_expire C d e2 i t.
Proof. unfold inst_expire. rewrite SE. destruct (p_expire C _ _ _) as [[m|]| |]; try reflexivity. rewrite two_inject. reflexivity. Qed.
Lemma two_send d i g b : inst_send C d e1 i g b = inst_send C d e2 i g b.
Proof.
  unfold inst_send. rewrite SE. destruct (p_prepare C _ _ _ _) as [[s m]| |]; try reflexivity. destruct m; try reflexivity.
  - destruct (encode_message _ _ _ _); cbn; try reflexivity. rewrite two_payloads. reflexivity.
  - destruct (encode_message _ _ _ _); cbn; try reflexivity. rewrite two_payloads. reflexivity.
Qed.
Lemma two_abort d i : inst_abort_smp C d e1 i = inst_abort_smp C d e2 i.
Proof.
  unfold inst_abort_smp. destruct (in_state i); try reflexivity.
  - destruct (smp_abort _) as [a b]. rewrite two_prepare. destruct (prepare_tlv C e2 _ _) as [[? ?]| |]; try reflexivity. rewrite two_inject. reflexivity.
  - destruct (smp4_abort _) as [a b]. rewrite two_prepare. destruct (prepare_tlv C e2 _ _) as [[? ?]| |]; try reflexivity. rewrite two_inject. reflexivity.
Qed.
Lemma two_start d i x q :
  (forall smp, smp_initiate C (ev_smp_host e1) (ev_smp e1) smp x q = smp_initiate C (ev_smp_host e2) (ev_smp e2) smp x q) ->
  inst_start_smp C d e1 i x q = inst_start_smp C d e2 i x q.
Proof.
  intros I. unfold inst_start_smp. destruct (in_state i); try reflexivity.
  - rewrite I. destruct (smp_initiate C _ _ _ _ _) as [a b]. destruct b; try reflexivity. rewrite two_prepare.
    destruct (prepare_tlv C e2 _ _) as [[? ?]| |]; try reflexivity. rewrite two_inject. reflexivity.
  - rewrite S4. destruct (smp4_initiate C _ _ _ _) as [a b]. destruct b; try reflexivity. rewrite two_prepare.
    destruct (prepare_tlv C e2 _ _) as [[? ?]| |]; try reflexivity. rewrite two_inject. reflexivity.
Qed.
Lemma two_data3 d i a b m : ev_answer e1 = ev_answer e2 -> ev_smp_host e1 = ev_smp_host e2 ->
  inst_data3 C d e1 i a b m = inst_data3 C d e2 i a b m.
Proof.
  intros AN SH. unfold inst_data3. rewrite AC. destruct (p_handle3 C _ _ _ _) as [s r]. destruct r as [c| |]; try reflexivity.
  destruct c; try reflexivity. destruct (existsb _ _); [|reflexivity]. destruct (single_smp _ _); try reflexivity.
  destruct s; try reflexivity. rewrite SH, SM. destruct (smp_handle C _ _ _ _) as [? ?]. apply two_finish.
Qed.
Lemma two_data4 d i a b m : ev_answer e1 = ev_answer e2 -> inst_data4 C d e1 i a b m = inst_data4 C d e2 i a b m.
Proof.
  intros AN. unfold inst_data4. destruct (data4_validate C m); try reflexivity. unfold ev_now. rewrite SE.
  destruct (p_handle4 C _ _ _ _) as [s r]. destruct r as [c| |]; try reflexivity.
  destruct c; try reflexivity. destruct (existsb _ _); [|reflexivity]. destruct (single_smp _ _); try reflexivity.
  destruct s; try reflexivity. rewrite AN, S4. destruct (smp4_handle C _ _ _ _) as [? ?]. apply two_finish.
Qed.
(* outside of a private conversation a data message is never opened *)
Lemma two_data3_out d i a b m : ~ (exists our their k smp, in_state i = PEnc3 our their k smp) ->
  inst_data3 C d e1 i a b m = inst_data3 C d e2 i a b m.
Proof.
  intros N. unfold inst_data3. rewrite AC. destruct (in_state i) eqn:E; try reflexivity. exfalso; apply N; repeat eexists.
Qed.
Lemma two_data4_out d i a b m : ~ (exists our their dr smp, in_state i = PEnc4 our their dr smp) ->
  inst_data4 C d e1 i a b m = inst_data4 C d e2 i a b m.
Proof.
  intros N. unfold inst_data4. destruct (data4_validate C m); try reflexivity. unfold ev_now. rewrite SE.
  destruct (in_state i) eqn:E; try reflexivity. exfalso; apply N; repeat eexists.
Qed.

Definition late (em : encoded_message) : Prop :=
  match em_version em, em_message em with V3, MData _ | V4, MData4 _ => True | _, _ => False end.
Lemma two_handle_rest d i em : ~ asks_signature em -> ~ late em -> inst_handle C d e1 i em = inst_handle C d e2 i em.
Proof.
  unfold inst_handle, asks_signature, late. cbv zeta. intros NA NL.
  destruct (em_version em), (em_message em); try reflexivity; try (exfalso; apply NA; exact I); try (exfalso; apply NL; exact I).
  - rewrite DH. destruct (ake_handle_dhcommit C _ _ _) as [st [r| |]]; try reflexivity. rewrite two_inject. reflexivity.
  - destruct (ake_handle_signature C _ _) as [st [r| |]]; try reflexivity. rewrite two_secure. reflexivity.
  - unfold ev_now. rewrite SE. destruct (dake_handle_auth_i C _ _ _ _ _) as [st [r| |]]; reflexivity.
Qed.
(* with the same keys, also the rest of a key exchange *)
Lemma two_handle_keys d i em : ev_dsa e1 = ev_dsa e2 -> ev_identity e1 = ev_identity e2 -> ev_nonce e1 = ev_nonce e2 -> ev_ring e1 = ev_ring e2 ->
  ~ late em -> inst_handle C d e1 i em = inst_handle C d e2 i em.
Proof.
  intros KD KI KN KR NL.
  assert (KH : ev_dake_host e1 = ev_dake_host e2) by (unfold ev_dake_host; rewrite PR, KI; reflexivity).
  unfold inst_handle. cbv zeta. unfold late in NL.
  destruct (em_version em), (em_message em); try reflexivity; try (exfalso; apply NL; exact I).
  - rewrite DH. destruct (ake_handle_dhcommit C _ _ _) as [st [r| |]]; try reflexivity. rewrite two_inject. reflexivity.
  - rewrite KD, KN. destruct (ake_handle_dhkey C _ _ _ _) as [st [r| |]]; try reflexivity. rewrite two_inject. reflexivity.
  - rewrite KD, KN. destruct (ake_handle_reveal C _ _ _ _) as [st [[? ?]| |]]; try reflexivity. rewrite two_secure.
    destruct (secure C _ _ _ _ _); try reflexivity. rewrite two_inject. reflexivity.
  - destruct (ake_handle_signature C _ _) as [st [r| |]]; try reflexivity. rewrite two_secure. reflexivity.
  - rewrite KH, DK, KR. destruct (dake_handle_identity C _ _ _ _ _ _ _) as [st [r| |]]; try reflexivity. rewrite two_inject. reflexivity.
  - unfold ev_now. rewrite KH, KR, SE. destruct (dake_handle_auth_r C _ _ _ _ _ _ _ _ _) as [st [[? ?]| |]]; try reflexivity. rewrite two_inject.
    destruct (inject _ _ _ _ _ _); reflexivity.
  - unfold ev_now. rewrite SE. destruct (dake_handle_auth_i C _ _ _ _ _) as [st [r| |]]; reflexivity.
Qed.

Lemma two_on_entry s t (f g : instance -> effect instance user_message) : f (entry t (se_instances s)) = g (entry t (se_instances s)) ->
  on_entry s t f = on_entry s t g.
Proof. intros E. unfold on_entry. rewrite E. reflexivity. Qed.
Lemma two_encoded s em :
  (match em_version em, em_message em with V3, MDHKey _ | V4, MAuthR _ => forall i, inst_handle C (se_details s) e1 i em = inst_handle C (se_details s) e2 i em
   | _, _ => inst_handle C (se_details s) e1 (entry (em_sender em) (se_instances s)) em =
             inst_handle C (se_details s) e2 (entry (em_sender em) (se_instances s)) em end) ->
  receive_encoded C e1 s em = receive_encoded C e2 s em.
Proof.
  intros H. unfold receive_encoded. cbv zeta. destruct (em_sender em =? 0); [reflexivity|]. destruct (verify_header _ _); try reflexivity.
  destruct (_ || _); [reflexivity|].
  destruct (em_version em), (em_message em); try (apply two_on_entry; exact H).
  - destruct (get_inst 0 _); [|reflexivity]. destruct (transfer_ake_context _); try reflexivity; apply two_on_entry; [|apply H].
    destruct (adopt_ake_context _ _); try reflexivity. apply H.
  - destruct (get_inst 0 _); [|reflexivity]. destruct (transfer_dake_context _); try reflexivity; apply two_on_entry; [|apply H].
    destruct (adopt_dake_context _ _); try reflexivity. apply H.
Qed.
Lemma two_message s b : (forall em, parse C b = Ok (MsgEncoded em) -> receive_encoded C e1 s em = receive_encoded C e2 s em) ->
  receive_message C e1 s b = receive_message C e2 s b.
Proof.
  intros H. unfold receive_message. cbv zeta. destruct (parse C b) as [m| |] eqn:P; try reflexivity. destruct m; try reflexivity.
  - destruct (whitespace_start_ake _); [|reflexivity]. destruct (select_version _ _); [|reflexivity]. rewrite two_initiate. reflexivity.
  - destruct (select_version _ _); [|reflexivity]. rewrite two_initiate. reflexivity.
  - apply H. reflexivity.
Qed.
(* the session in which the message that the payload makes available is handled *)
Lemma two_receive s p :
  (forall s1 b em, completes s p b -> se_details s1 = se_details s ->
     (s1 = s \/ exists f a, s1 = put s (fr_sender f) (set_assembler (entry (fr_sender f) (se_instances s)) a)) ->
     parse C b = Ok (MsgEncoded em) -> receive_encoded C e1 s1 em = receive_encoded C e2 s1 em) ->
  receive C e1 s p = receive C e2 s p.
Proof.
  intros H. unfold receive. cbv zeta. destruct (otr_disabled _); [reflexivity|]. destruct (match_fragment p) eqn:M.
  - destruct (parse_fragment p) as [[f|]| |] eqn:P; try reflexivity. destruct (negb (verify_fragment f)) eqn:V; [reflexivity|].
    destruct (negb (fr_receiver f =? 0) && negb (fr_receiver f =? de_tag (se_details s))) eqn:T; [reflexivity|].
    destruct (assemble _ f) as [a r] eqn:A. destruct r as [b|x|]; try reflexivity. destruct (match_fragment b) eqn:Mb; [reflexivity|].
    rewrite two_message; [reflexivity|]. intros em PE. eapply H; [|reflexivity| |exact PE].
    + right. exists f, a. split; [exact M|]. split; [exact P|]. split; [destruct (verify_fragment f); [reflexivity|discriminate V]|].
      split; [|split; [exact A|exact Mb]]. destruct (N.eqb_spec (fr_receiver f) 0) as [E|_]; [left; exact E|].
      destruct (N.eqb_spec (fr_receiver f) (de_tag (se_details s))) as [E|_]; [right; exact E|discriminate T].
    + right. exists f, a. reflexivity.
  - apply two_message. intros em PE. eapply H; [left; split; [exact M|reflexivity]|reflexivity|left; reflexivity|exact PE].
Qed.
End Two.

Lemma get_put s t i u : get_inst u (se_instances (put s t i)) = if t =? u then Some i else get_inst u (se_instances s).
Proof.
  unfold put, with_instances. cbn [se_instances]. induction (se_instances s) as [|[k j] l IH]; cbn; [reflexivity|].
  destruct (N.eqb_spec k t) as [->|N]; cbn.
  - destruct (t =? u); reflexivity.
  - destruct (N.eqb_spec k u) as [->|N2]; [|exact IH]. destruct (N.eqb_spec t u) as [->|_]; [contradiction|reflexivity].
Qed.
Lemma state_put_assembler s t a u : in_state (entry u (se_instances (put s t (set_assembler (entry t (se_instances s)) a)))) =
  in_state (entry u (se_instances s)).
Proof.
  unfold entry at 1. rewrite get_put. destruct (N.eqb_spec t u) as [->|_]; [reflexivity|]. reflexivity.
Qed.
Lemma state_of_entry s u : in_state (entry u (se_instances s)) = state_of s u.
Proof. unfold entry, state_of. destruct (get_inst u (se_instances s)); reflexivity. Qed.

Lemma expire_two d es1 es2 t l : (forall u i, inst_expire C d (es1 u) i t = inst_expire C d (es2 u) i t) ->
  expire_all C d es1 t l = expire_all C d es2 t l.
Proof. intros H. induction l as [|[u i] r IH]; [reflexivity|]. cbn. rewrite H, IH. reflexivity. Qed.

Lemma call_private es1 es2 s o : (forall t, same_but_private (es1 t) (es2 t)) -> unsigned C s o -> call C es1 s o = call C es2 s o.
Proof.
  intros S U. destruct o as [p|t b|v t|t| |t x q|t|t]; cbn [call].
  - f_equal. pose proof (S 0) as S0. pose proof (smp_host_private _ _ S0) as SH. destruct S0. apply two_receive; try assumption.
    intros s1 b em CO D _ PE. pose proof (U p em eq_refl (ex_intro _ b (conj CO PE))) as NA.
    assert (A : forall i, inst_handle C (se_details s1) (es1 0) i em = inst_handle C (se_details s1) (es2 0) i em).
    { intros i. destruct (em_version em) eqn:EV, (em_message em) eqn:EM;
        try (apply two_handle_rest; try assumption; unfold late; rewrite EV; try rewrite EM; exact (fun x => x)).
      - unfold inst_handle. rewrite EV, EM. apply two_data3; assumption.
      - unfold inst_handle. rewrite EV, EM. apply two_data4; assumption. }
    apply two_encoded; try assumption. destruct (em_version em), (em_message em); intros; apply A.
  - f_equal. destruct (S t). unfold send. cbv zeta.
    destruct (otr_disabled _); [reflexivity|]. destruct (get_inst t _); [|reflexivity]. destruct (_ && _); [reflexivity|].
    rewrite (two_send (es1 t) (es2 t)); [reflexivity|assumption..].
  - f_equal. destruct (S t). apply two_initiate; assumption.
  - f_equal. destruct (S t). unfold end_session, on_instance. destruct (get_inst t _); [|reflexivity].
    rewrite (two_reset (es1 t) (es2 t)); [reflexivity|assumption..].
  - reflexivity.
  - f_equal. pose proof (smp_host_private _ _ (S t)) as SH. destruct (S t). unfold start_smp, on_instance. destruct (get_inst t _); [|reflexivity].
    rewrite (two_start (es1 t) (es2 t)); [reflexivity|try assumption..]. intros smp. rewrite SH. congruence.
  - f_equal. destruct (S t). unfold abort_smp, on_instance. destruct (get_inst t _); [|reflexivity].
    rewrite (two_abort (es1 t) (es2 t)); [reflexivity|assumption..].
  - f_equal. unfold expire. rewrite (expire_two _ es1 es2); [reflexivity|]. intros u i. destruct (S u). apply two_expire; assumption.
Qed.

Lemma call_answer es1 es2 s o : (forall t, same_but_answer (es1 t) (es2 t)) -> unasked C s o -> call C es1 s o = call C es2 s o.
Proof.
  intros S U. destruct o as [p|t b|v t|t| |t x q|t|t]; cbn [call].
  - f_equal. destruct (S 0). apply two_receive; try assumption.
    intros s1 b em CO D PU PE. pose proof (U p em eq_refl (ex_intro _ b (conj CO PE))) as NA.
    assert (ST : in_state (entry (em_sender em) (se_instances s1)) = state_of s (em_sender em)).
    { destruct PU as [->|(f & a & ->)]; [apply state_of_entry|]. rewrite state_put_assembler. apply state_of_entry. }
    unfold in_conversation in NA. rewrite <- ST in NA.
    apply two_encoded; try assumption. destruct (em_version em) eqn:EV, (em_message em) eqn:EM; intros;
      try (apply two_handle_keys; try assumption; unfold late; rewrite EV; try rewrite EM; exact (fun x => x)).
    + unfold inst_handle. rewrite EV, EM. apply two_data3_out; assumption.
    + unfold inst_handle. rewrite EV, EM. apply two_data4_out; assumption.
  - f_equal. destruct (S t). unfold send. cbv zeta.
    destruct (otr_disabled _); [reflexivity|]. destruct (get_inst t _); [|reflexivity]. destruct (_ && _); [reflexivity|].
    rewrite (two_send (es1 t) (es2 t)); [reflexivity|assumption..].
  - f_equal. destruct (S t). apply two_initiate; assumption.
  - f_equal. destruct (S t). unfold end_session, on_instance. destruct (get_inst t _); [|reflexivity].
    rewrite (two_reset (es1 t) (es2 t)); [reflexivity|assumption..].
  - reflexivity.
  - f_equal. destruct (S t). unfold start_smp, on_instance. destruct (get_inst t _); [|reflexivity].
    rewrite (two_start (es1 t) (es2 t)); [reflexivity|try assumption..]. intros smp.
    replace (ev_smp (es1 t)) with (ev_smp (es2 t)) by congruence. unfold smp_initiate, host_fp, ev_smp_host. cbn [sh_key].
    replace (ev_dsa (es1 t)) with (ev_dsa (es2 t)) by congruence. reflexivity.
  - f_equal. destruct (S t). unfold abort_smp, on_instance. destruct (get_inst t _); [|reflexivity].
    rewrite (two_abort (es1 t) (es2 t)); [reflexivity|assumption..].
  - f_equal. unfold expire. rewrite (expire_two _ es1 es2); [reflexivity|]. intros u i. destruct (S u). apply two_expire; assumption.
Qed.

Lemma play_same (P : session -> op -> Prop) (Q : env -> env -> Prop) :
  (forall es1 es2 s o, (forall t, Q (es1 t) (es2 t)) -> P s o -> call C es1 s o = call C es2 s o) ->
  forall l1 l2 s, Forall2 (fun a b => snd a = snd b /\ forall t, Q (fst a t) (fst b t)) l1 l2 -> each C P l1 s -> play C l1 s = play C l2 s.
Proof.
  intros H l1 l2 s F. revert s. induction F as [|[es1 o1] [es2 o2] l1 l2 [E A] F IH]; intros s EA; [reflexivity|].
  cbn in E, A. subst o2. cbn in EA |- *. destruct EA as [PO EA]. rewrite <- (H es1 es2 s o1 A PO). destruct (call C es1 s o1) as [[s1 out] x].
  cbn in EA. rewrite (IH s1 EA). reflexivity.
Qed.
End WithCrypto.
