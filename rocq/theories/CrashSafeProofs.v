(* What holds of every client of a session, through all calls, and so of every session. *)
From Verif Require Import Base BaseLemmas Types Crypto CryptoProofs Encoding EncodingProofs ClientProfile Messages MessagesProofs
  Base64 Fragment FragmentProofs KeyManager DataV3 DataV3Proofs Ratchet DataV4 DataV4Proofs AKE AKEProofs DAKE DAKEProofs SMP SMP4
  Protocol Session SpecWire SpecCurve SpecData3 SpecData4 SpecSMP SpecSMP4 SpecDAKE SpecSession RingProofs SMPSafeProofs
  History3Proofs SMP4HistProofs SessionProofs SessionInvProofs SessionRecvProofs SessionSendProofs SessionLemmas
  SpecCrash CrashProofs CrashDataProofs CrashSmpProofs CrashKexProofs CrashInstProofs.
From Coq Require Import Lia ZifyN ZifyNat.
Local Open Scope N_scope.

Section WithCrypto.
Context (C : Crypto) (GS : groups_sound C).
Let GO : smp4_group C := proj1 GS.
Let G3 : smp_group C := proj1 (proj2 GS).
Let G0 : 0 < c_dh3_g C := proj2 (proj2 (proj2 GS)).
Let fs := finish_safe C GS.

Lemma safe_set_state i st : safe_inst C i -> safe_state C st -> safe_inst C (set_state i st).
Proof. intros [A B D] S. constructor; assumption. Qed.
Lemma safe_set_ake i a : safe_inst C i -> ake_in C a -> safe_inst C (set_ake i a).
Proof. intros [A B D] S. constructor; assumption. Qed.
Lemma safe_set_dake i a : safe_inst C i -> dake_in C a -> safe_inst C (set_dake i a).
Proof. intros [A B D] S. constructor; assumption. Qed.
Lemma safe_set_asm i a : safe_inst C i -> safe_inst C (set_assembler i a).
Proof. intros [A B D]. constructor; assumption. Qed.

Lemma dhcommit_in st m rnd st' r : ake_in C st -> ake_handle_dhcommit C st m rnd = (st', r) -> ake_in C st'.
Proof.
  assert (I : ake_in C st -> dhcommit_from_initial C st m rnd = (st', r) -> ake_in C st').
  { unfold dhcommit_from_initial. intros A H. destruct (dh_generate C rnd); apply pair_equal_spec in H; destruct H as [<- _]; auto; exact I. }
  unfold ake_handle_dhcommit. intros A. destruct st as [|our x|our x y|our gy sh prev]; try (now apply I).
  - cbv zeta. destruct (_ <? _); [|now apply I]. intros H. apply pair_equal_spec in H. destruct H as [<- _]. exact Logic.I.
  - intros H. apply pair_equal_spec in H. destruct H as [<- _]. exact Logic.I.
Qed.
Lemma dhkey_in host nonce st m st' r : ake_in C st -> ake_handle_dhkey C host nonce st m = (st', r) -> ake_in C st'.
Proof.
  intros A. unfold ake_handle_dhkey. destruct st as [|our x|our x y|our gy sh prev];
    try (intros H; apply pair_equal_spec in H; destruct H as [<- _]; exact I).
  - destruct (dh_verify_public_key C (dk_gy m)) eqn:V; cbn [negb]; [|intros H; apply pair_equal_spec in H; destruct H as [<- _]; exact I].
    destruct host as [k|]; [|intros H; apply pair_equal_spec in H; destruct H as [<- _]; exact I].
    cbv zeta. destruct (ake_prove _ _ _ _ _ _). intros H. apply pair_equal_spec in H. destruct H as [<- _]. exact V.
  - destruct (negb _); intros H; apply pair_equal_spec in H; destruct H as [<- _]; exact A.
Qed.
Lemma reveal_in host nonce st m st' r : ake_in C st -> ake_handle_reveal C host nonce st m = (st', r) -> ake_in C st'.
Proof.
  intros A. unfold ake_handle_reveal. destruct st as [|our x|our x y|our gy sh prev];
    try (intros H; apply pair_equal_spec in H; destruct H as [<- _]; exact A).
  destruct (reveal_result _ _ _ _ _ _ _) as [[? ?]|?|]; intros H; apply pair_equal_spec in H; destruct H as [<- _]; exact I.
Qed.
Lemma signature_in st m st' r : ake_in C st -> ake_handle_signature C st m = (st', r) -> ake_in C st'.
Proof.
  intros A. unfold ake_handle_signature. destruct st as [|our x|our x y|our gy sh prev];
    try (intros H; apply pair_equal_spec in H; destruct H as [<- _]; exact A).
  destruct (signature_result _ _ _ _ _) as [?|?|]; intros H; apply pair_equal_spec in H; destruct H as [<- _]; try exact I; exact A.
Qed.
Lemma auth_r_in a b c d n st m x y st' r : dake_in C st -> dake_handle_auth_r C a b c d n st m x y = (st', r) -> dake_in C st'.
Proof.
  intros A. unfold dake_handle_auth_r. destruct st as [|w|w]; try (intros H; apply pair_equal_spec in H; destruct H as [<- _]; exact A).
  match goal with |- match ?x with _ => _ end = _ -> _ => destruct x as [[? ?]|?|] end;
    intros H; apply pair_equal_spec in H; destruct H as [<- _]; exact I.
Qed.
Lemma auth_i_in n st m x y st' r : dake_in C st -> dake_handle_auth_i C n st m x y = (st', r) -> dake_in C st'.
Proof.
  intros A. unfold dake_handle_auth_i. destruct st as [|w|w]; intros H; apply pair_equal_spec in H; destruct H as [<- _]; exact A.
Qed.

Lemma handle3_safe st m auth rnd st' r : safe_state C st -> p_handle3 C st m auth rnd = (st', r) -> r <> Panic -> safe_state C st'.
Proof.
  intros S H NP. destruct st as [|our their k smp|our their d smp|]; cbn [p_handle3] in H;
    try (apply pair_equal_spec in H; destruct H as [<- _]; exact S).
  destruct (decrypt3 C k m auth rnd) as [k' x] eqn:D. destruct S as [W CL].
  assert (X : x <> Panic). { intros ->. cbn in H. apply pair_equal_spec in H. destruct H as [_ <-]. now apply NP. }
  assert (W' : wf3 k') by (eapply recv_wf; [exact W|apply decrypt3_cases; [exact D|exact X]]).
  unfold after_decrypt in H. destruct x as [text|x|]; [|apply pair_equal_spec in H; destruct H as [<- _]; split; assumption|congruence].
  destruct (parse_message text) as [[]|?|]; apply pair_equal_spec in H; destruct H as [<- _]; try (split; assumption); exact I.
Qed.
Lemma handle4_safe st m auth now st' r : safe_state C st -> pt_valid C (d4_ecdh m) ->
  p_handle4 C st m auth now = (st', r) -> r <> Panic -> safe_state C st'.
Proof.
  intros S PV H NP. destruct st as [|our their k smp|our their d smp|]; cbn [p_handle4] in H;
    try (apply pair_equal_spec in H; destruct H as [<- _]; exact S).
  destruct (decrypt4 C d m auth now) as [d' x] eqn:D. cbn [safe_state] in S.
  unfold after_decrypt in H. destruct x as [text|x|].
  - pose proof (decrypt4_ok4 C G0 _ _ _ _ _ _ S PV D) as W'.
    destruct (parse_message text) as [[]|?|]; apply pair_equal_spec in H; destruct H as [<- _]; try exact W'; exact I.
  - apply decrypt4_err in D. subst d'. apply pair_equal_spec in H. destruct H as [<- _]. exact S.
  - apply pair_equal_spec in H. destruct H as [_ <-]. now elim NP.
Qed.

Lemma data3_safe d e i t receiver m i' out r : safe_inst C i -> inst_data3 C d e i t receiver m = (i', out, r) -> r <> Panic ->
  safe_inst C i'.
Proof.
  intros S H NP. unfold inst_data3 in H.
  destruct (p_handle3 C (in_state i) m _ (ev_ack e)) as [st x] eqn:P.
  destruct (res_panic_dec x) as [->|NX]; [fin3 H; congruence|].
  apply handle3_safe in P; [|apply S|exact NX]. pose proof (safe_set_state i st S P) as S1.
  destruct x as [[content tlvs|content]|x|]; [|fin3 H; exact S1| |congruence].
  2: { apply data_error_inst in H. now subst i'. }
  destruct (existsb is_smp3_tlv tlvs); [|fin3 H; exact S1].
  destruct (single_smp is_smp3_tlv tlvs) as [u|x|]; [|fin3 H; exact S1|fin3 H; congruence].
  destruct st as [|our their k smp|our their k smp|]; try (fin3 H; exact S1).
  destruct (smp_handle C (ev_smp_host e) (ev_smp e) smp u) as [smp' reply] eqn:SH.
  assert (NR : reply <> Panic). { intros ->. cbn in H. fin3 H. congruence. }
  destruct P as [W CL]. pose proof (smp_handle_clean C G3 _ _ _ _ _ _ CL SH NR) as [CL' _].
  apply fs in H; [|split; assumption|exact NP]. destruct H as (A & B & D). constructor; [exact A|rewrite B; apply S|rewrite D; apply S].
Qed.
Lemma data4_safe d e i t receiver m i' out r : safe_inst C i -> pt_valid C (d4_ecdh m) ->
  inst_data4 C d e i t receiver m = (i', out, r) -> r <> Panic -> safe_inst C i'.
Proof.
  intros S PV H NP. unfold inst_data4 in H. destruct (data4_validate C m) as [[]|x|]; [|fin3 H; exact S|fin3 H; congruence].
  destruct (p_handle4 C (in_state i) m _ (ev_now e)) as [st x] eqn:P.
  destruct (res_panic_dec x) as [->|NX]; [fin3 H; congruence|].
  apply handle4_safe in P; [|apply S|exact PV|exact NX]. pose proof (safe_set_state i st S P) as S1.
  destruct x as [[content tlvs|content]|x|]; [|fin3 H; exact S1| |congruence].
  2: { apply data_error_inst in H. now subst i'. }
  destruct (existsb is_smp4_tlv tlvs); [|fin3 H; exact S1].
  destruct (single_smp is_smp4_tlv tlvs) as [u|x|]; [|fin3 H; exact S1|fin3 H; congruence].
  destruct st as [|our their k smp|our their k smp|]; try (fin3 H; exact S1).
  destruct (smp4_handle C (ev_answer e) (ev_smp4 e) smp u) as [smp' reply] eqn:SH.
  apply fs in H; [|exact P|exact NP]. destruct H as (A & B & D). constructor; [exact A|rewrite B; apply S|rewrite D; apply S].
Qed.

Lemma smp_new_clean a b : clean C (smp_new a b).
Proof. split; [exact I|]. split; [discriminate|]. intros H. elim H. reflexivity. Qed.
Lemma secure3_safe d e i their mat i' : safe_inst C i -> secure C d e i their (MatAKE mat) = Ok i' -> safe_inst C i'.
Proof.
  intros S H. apply secure3_ok in H. destruct H as (k & smp & -> & W & ST & SS). apply safe_set_state; [exact S|]. split; [exact W|].
  unfold clean, state_ok. rewrite SS, ST. split; [exact I|]. split; [discriminate|]. intros H. elim H. exact SS.
Qed.
Lemma secure4_safe d e i their mat i' : safe_inst C i -> ok4 C (dm_ratchet mat) ->
  secure C d e i their (MatDAKE mat) = Ok i' -> safe_inst C i'.
Proof. intros S K H. rewrite secure4_ok in H. injection H as <-. apply safe_set_state; [exact S|exact K]. Qed.

Lemma injecting_safe {A} (i j : instance) o (a : A) i' out r : safe_inst C j -> injecting i j o a = (i', out, r) -> r <> Panic ->
  safe_inst C i'.
Proof. intros S H NP. destruct o; fin3 H; auto. congruence. Qed.

Lemma handle_safe d e i0 em i' out r : safe_inst C i0 -> wire_in C em ->
  inst_handle C d e i0 em = (i', out, r) -> r <> Panic -> safe_inst C i'.
Proof.
  intros S WI H NP. unfold inst_handle in H. unfold wire_in in WI.
  destruct (em_version em) eqn:EV; cbv beta iota zeta in H;
    try (destruct (em_message em); fin3 H; try exact S; congruence).
  - pose proof (safe_set_asm i0 (assembler_cleanup_v3 (in_assembler i0)) S) as S0.
    set (i := set_assembler i0 (assembler_cleanup_v3 (in_assembler i0))) in *.
    destruct (em_message em) as [|m|m|m|m|m|m|m|m|m] eqn:EM; try (fin3 H; try exact S0; congruence).
    + destruct (ake_handle_dhcommit C (in_ake i) m (ev_dh e)) as [st [x|x|]] eqn:A; [| |fin3 H; congruence];
        apply dhcommit_in in A; try apply S0; pose proof (safe_set_ake i st S0 A); [|fin3 H; assumption].
      eapply injecting_safe; eassumption.
    + destruct (ake_handle_dhkey C (ev_dsa e) (ev_nonce e) (in_ake i) m) as [st [x|x|]] eqn:A; [| |fin3 H; congruence];
        apply dhkey_in in A; try apply S0; pose proof (safe_set_ake i st S0 A); [|fin3 H; assumption].
      eapply injecting_safe; eassumption.
    + destruct (ake_handle_reveal C (ev_dsa e) (ev_nonce e) (in_ake i) m) as [st [[mat x]|x|]] eqn:A; [| |fin3 H; congruence];
        apply reveal_in in A; try apply S0; pose proof (safe_set_ake i st S0 A); [|fin3 H; assumption].
      destruct (secure C d e _ (em_sender em) (MatAKE mat)) as [j|x0|] eqn:SE; [|fin3 H; exact S0|fin3 H; congruence].
      apply secure3_safe in SE; [|assumption]. exact (injecting_safe _ _ _ _ _ _ _ SE H NP).
    + destruct (ake_handle_signature C (in_ake i) m) as [st [mat|x|]] eqn:A; [| |fin3 H; congruence];
        apply signature_in in A; try apply S0; pose proof (safe_set_ake i st S0 A); [|fin3 H; assumption].
      destruct (secure C d e _ (em_sender em) (MatAKE mat)) as [j|x0|] eqn:SE; [|fin3 H; exact S0|fin3 H; congruence].
      apply secure3_safe in SE; [|assumption]. fin3 H. exact SE.
    + eapply data3_safe; eassumption.
  - destruct (em_message em) as [|m|m|m|m|m|m|m|m|m] eqn:EM; try (fin3 H; try exact S; congruence).
    + destruct (dake_handle_identity C _ _ _ _ _ _ _) as [st [x|x|]] eqn:A; [| |fin3 H; congruence];
        (eapply (identity_in C) in A; [|exact (proj1 WI)|exact (proj2 (proj2 WI))|apply S]); pose proof (safe_set_dake i0 st S A); [|fin3 H; assumption].
      eapply injecting_safe; eassumption.
    + destruct (dake_handle_auth_r C _ _ _ _ _ _ _ _ _) as [st [[mat x]|x|]] eqn:A; [| |fin3 H; congruence].
      2: { apply auth_r_in in A; [|apply S]. fin3 H. now apply safe_set_dake. }
      pose proof (auth_r_ok4 C _ _ _ _ _ _ _ (proj2 (proj2 WI)) A) as K.
      apply auth_r_in in A; [|apply S].
      destruct (inject d e i0 V4 (em_sender em) (MAuthI x)) as [o|x0|]; [|fin3 H; exact S|fin3 H; congruence].
      destruct (secure C d e _ (in_receiver i0) (MatDAKE mat)) as [j|x0|] eqn:SE; [|fin3 H; exact S|fin3 H; congruence].
      apply secure4_safe in SE; [|now apply safe_set_dake|exact K]. fin3 H. exact SE.
    + destruct (dake_handle_auth_i C _ _ _ _ _) as [st [mat|x|]] eqn:A; [| |fin3 H; congruence].
      2: { apply auth_i_in in A; [|apply S]. fin3 H. now apply safe_set_dake. }
      pose proof (auth_i_ok4 C _ _ _ _ _ _ (sf_dake C i0 S) A) as K.
      apply auth_i_in in A; [|apply S].
      destruct (secure C d e _ (in_receiver i0) (MatDAKE mat)) as [j|x0|] eqn:SE; [|fin3 H; exact S|fin3 H; congruence].
      apply secure4_safe in SE; [|now apply safe_set_dake|exact K]. fin3 H. exact SE.
    + eapply data4_safe; try eassumption. apply WI.
Qed.

(** ** The other calls *)

Lemma inst_initiate_safe d e i v i' out r : safe_inst C i -> inst_initiate C d e i v = (i', out, r) -> r <> Panic -> safe_inst C i'.
Proof.
  intros S H NP. unfold inst_initiate in H. destruct v; try (fin3 H; congruence).
  - destruct (ake_initiate C (ev_dh e) (ev_r e)) as [[st m]|x|] eqn:A; [|fin3 H; exact S|fin3 H; congruence].
    eapply injecting_safe; [|eassumption|exact NP]. apply safe_set_ake; [exact S|].
    unfold ake_initiate in A. bind_inv A. injection A as <- _. exact I.
  - destruct (dake_initiate C (ev_dake_host e) (ev_dake e) (in_dake i)) as [st [m|x|]] eqn:A; [| |fin3 H; congruence];
      (assert (K : dake_in C st);
        [unfold dake_initiate in A; destruct (in_dake i) eqn:DI;
          try (apply pair_equal_spec in A; destruct A as [<- _]; rewrite <- DI; apply S);
          match type of A with match ?x with _ => _ end = _ => destruct x as [[? ?]|?|] end;
          apply pair_equal_spec in A; destruct A as [<- _]; exact I|]);
      pose proof (safe_set_dake i st S K); [eapply injecting_safe; eassumption|fin3 H; assumption].
Qed.
Lemma reset_safe d e i i' out r : safe_inst C i -> inst_reset C d e i = (i', out, r) -> r <> Panic -> safe_inst C i'.
Proof.
  intros S H NP. unfold inst_reset in H. pose proof (safe_set_state i PPlain S I) as S1.
  destruct (p_finish C (in_state i) (ev_send e)) as [a|x|]; [|fin3 H; exact S|fin3 H; congruence].
  destruct (status_eqb (in_status i) Plaintext); destruct a as [m|]; try (fin3 H; (exact S1 || congruence)).
  eapply injecting_safe; eassumption.
Qed.
Lemma inst_send_safe d e i tg c i' tg' r : safe_inst C i -> inst_send C d e i tg c = (i', tg', r) -> r <> Panic -> safe_inst C i'.
Proof.
  intros S H NP. unfold inst_send in H.
  destruct (p_prepare C (in_state i) false (drop_by_value c x00) (ev_send e)) as [[s m]|x|] eqn:P; [|fin3 H; exact S|fin3 H; congruence].
  pose proof (safe_set_state i s S (prepare_safe C GS _ _ _ _ _ _ (sf_state C i S) P)) as S1.
  destruct m; try (fin3 H; exact S1 || congruence). destruct (negb _); [fin3 H; congruence|]. cbv zeta in H.
  destruct (_ && _ && _); fin3 H; exact S1.
Qed.
Lemma start_smp_safe d e i sec q i' out r : safe_inst C i -> inst_start_smp C d e i sec q = (i', out, r) -> r <> Panic -> safe_inst C i'.
Proof.
  intros S H NP. unfold inst_start_smp in H. pose proof (sf_state C i S) as SS.
  assert (GOAL : forall s' (t : res tlv), safe_state C s' -> t <> Panic ->
    match t with
    | Ok t =>
        match prepare_tlv C e s' t with
        | Ok (s, m) => injecting i (set_state i s) (inject d e i (p_version (in_state i)) (in_receiver i) m) tt
        | Err x => (set_state i s', [], Err x)
        | Panic => (i, [], Panic)
        end
    | Err x => (set_state i s', [], Err x)
    | Panic => (i, [], Panic)
    end = (i', out, r) -> safe_inst C i').
  { intros s' t S' NT X. destruct t as [t|x|]; [|fin3 X; now apply safe_set_state|congruence].
    destruct (prepare_tlv C e s' t) as [[s m]|x|] eqn:P; [|fin3 X; now apply safe_set_state|fin3 X; congruence].
    unfold prepare_tlv in P. bind_inv P. apply (prepare_safe C GS) in P; [|exact S'].
    eapply injecting_safe; [|eassumption|exact NP]. now apply safe_set_state. }
  destruct (in_state i) as [|our their k smp|our their k smp|] eqn:ST; try (fin3 H; exact S).
  - destruct (smp_initiate C (ev_smp_host e) (ev_smp e) smp sec q) as [smp' t] eqn:SI.
    assert (NT : t <> Panic). { intros ->. fin3 H. congruence. }
    eapply GOAL; [|exact NT|exact H]. destruct SS as [W CL]. split; [exact W|].
    apply initiate_cases in SI; [|exact NT]. destruct SI as [(_ & -> & _)|(_ & NI & ST' & SO & _)]; [exact CL|].
    split; [exact SO|]. rewrite ST'. split; auto.
  - destruct (smp4_initiate C (ev_smp4 e) smp sec q) as [smp' t] eqn:SI.
    assert (NT : t <> Panic). { intros ->. fin3 H. congruence. }
    eapply GOAL; [|exact NT|exact H]. exact SS.
Qed.
Lemma abort_smp_safe d e i i' out r : safe_inst C i -> inst_abort_smp C d e i = (i', out, r) -> r <> Panic -> safe_inst C i'.
Proof.
  intros S H NP. unfold inst_abort_smp in H. pose proof (sf_state C i S) as SS.
  assert (GOAL : forall s' t, safe_state C s' ->
    match prepare_tlv C e s' t with
    | Ok (s, m) => injecting i (set_state i s) (inject d e i (p_version s) (in_receiver i) m) tt
    | _ => (i, [], Panic)
    end = (i', out, r) -> safe_inst C i').
  { intros s' t S' X. destruct (prepare_tlv C e s' t) as [[s m]|x|] eqn:P; [|fin3 X; congruence|fin3 X; congruence].
    unfold prepare_tlv in P. bind_inv P. apply (prepare_safe C GS) in P; [|exact S'].
    eapply injecting_safe; [|eassumption|exact NP]. now apply safe_set_state. }
  destruct (in_state i) as [|our their k smp|our their k smp|] eqn:ST; try (fin3 H; exact S).
  - cbn [smp_abort] in H. eapply GOAL; [|exact H]. destruct SS as [W CL]. split; [exact W|].
    split; [exact I|]. split; [discriminate|]. intros N. elim N. reflexivity.
  - unfold smp4_abort in H. eapply GOAL; [|exact H]. exact SS.
Qed.

(** ** Sessions *)

Definition safe_ses (s : session) : Prop := all_inst (fun _ i => safe_inst C i) (se_instances s).
Lemma safe_entry s t : safe_ses s -> safe_inst C (entry t (se_instances s)).
Proof.
  intros S. unfold entry. destruct (get_inst t (se_instances s)) as [i|] eqn:E; [|apply safe_new].
  exact (all_get _ _ _ _ S E).
Qed.
Lemma safe_put s t i : safe_ses s -> safe_inst C i -> safe_ses (put s t i).
Proof. intros S I. unfold safe_ses. cbn. now apply all_set. Qed.
Lemma safe_stored s p : safe_ses s -> safe_ses (stored s p).
Proof.
  intros S. unfold stored. destruct (match_fragment p); [|exact S]. destruct (parse_fragment p) as [[f|]|?|]; try exact S.
  apply safe_put; [exact S|]. apply safe_set_asm. now apply safe_entry.
Qed.
Lemma adopted_safe s em i0 : safe_ses s -> adopted (get_inst 0 (se_instances s)) em (entry (em_sender em) (se_instances s)) i0 ->
  safe_inst C i0.
Proof.
  intros S [->|[(zi & a & Z & _ & _ & A & ->)|(zi & a & Z & _ & _ & A & ->)]].
  - now apply safe_entry.
  - apply safe_set_ake; [now apply safe_entry|]. unfold ake_transfer in A. destruct (in_ake zi); try discriminate. injection A as <-. exact I.
  - apply safe_set_dake; [now apply safe_entry|]. unfold dake_transfer in A. destruct (in_dake zi); try discriminate. injection A as <-. exact I.
Qed.
Lemma initiate_safe e s v t s' out r : safe_ses s -> initiate C e s v t = (s', out, r) -> r <> Panic -> safe_ses s'.
Proof.
  intros S H NP. apply initiate_inv in H; [|exact NP]. destruct H as (i' & H & -> & _). apply safe_put; [exact S|].
  apply inst_initiate_safe in H; [exact H|now apply safe_entry|exact NP].
Qed.
Lemma message_safe e s b s' out r : safe_ses s -> receive_message C e s b = (s', out, r) -> r <> Panic -> safe_ses s'.
Proof.
  intros S H NP. apply message_split in H; [|exact NP].
  destruct H as [(x & _ & -> & _) | [(t & _ & -> & _) | [(t & _ & H) | [(vs & t & _ & H) | [(vs & _ & H) | (em & P & H)]]]]];
    try assumption.
  - apply deliver_inv in H; [|assumption]. destruct H as (-> & _). assumption.
  - destruct H as [(_ & H) | (_ & v & s1 & r1 & _ & H1 & NP1 & H)].
    + apply deliver_inv in H; [|assumption]. destruct H as (-> & _). assumption.
    + apply initiate_safe in H1; [|assumption|assumption]. destruct H as [(_ & H) | (-> & _)]; [|assumption].
      apply deliver_inv in H; [|assumption]. destruct H as (-> & _). assumption.
  - destruct H as [(_ & -> & _) | (v & r1 & _ & H1 & H)]; [assumption|].
    eapply initiate_safe; [exact S|exact H1|]. destruct H as [((m & ->) & _) | (_ & x & ->)]; congruence.
  - apply (parse_in C GO) in P. apply encoded_split in H; [|exact NP].
    destruct H as [(-> & _) | [(-> & _) | (_ & _ & _ & i0 & i' & A & H & ->)]]; try assumption.
    apply safe_put; [exact S|]. eapply handle_safe; try eassumption. eapply adopted_safe; eassumption.
Qed.
Lemma receive_safe e s p s' out r : safe_ses s -> receive C e s p = (s', out, r) -> r <> Panic -> safe_ses s'.
Proof.
  intros S H NP. apply receive_split in H; [|assumption].
  destruct H as [(_ & -> & _) | [(_ & b & _ & H) | (_ & _ & _ & [-> | (-> & _)] & _)]]; try assumption.
  - eapply message_safe; [|exact H|exact NP]. now apply safe_stored.
  - now apply safe_stored.
Qed.
Lemma call_safe es s o s' out r : safe_ses s -> call C es s o = (s', out, r) -> r <> Panic -> safe_ses s'.
Proof.
  intros S H NP. unfold call in H.
  assert (ANS : forall A (f : A -> answer) x, answering f x = (s', out, r) ->
     exists r0, x = (s', out, r0) /\ r = res_map f r0 /\ r0 <> Panic).
  { intros A f [[s1 o1] r1] X. unfold answering in X. fin3 X. exists r1.
    split; [reflexivity|]. split; [reflexivity|]. intros ->. now apply NP. }
  assert (OI : forall A (f : instance -> effect instance A) t r0, on_instance s t f = (s', out, r0) -> r0 <> Panic ->
     (forall i i' o x, safe_inst C i -> f i = (i', o, x) -> x <> Panic -> safe_inst C i') -> safe_ses s').
  { intros A f t r0 X NP0 F. apply on_instance_inv in X; [|assumption].
    destruct X as [(_ & -> & _) | (i & i' & G & X & ->)]; [auto|].
    apply safe_put; [exact S|]. eapply F; [|exact X|exact NP0]. exact (all_get _ _ _ _ S G). }
  destruct o; apply ANS in H; destruct H as (r0 & H & _ & NP0).
  - eapply receive_safe; eassumption.
  - apply send_inv in H; [|exact NP0].
    destruct H as [(_ & -> & _)|(_ & [(_ & -> & _)|(i & G & [(_ & _ & -> & _)|(_ & _ & i' & tg & H & ->)])])]; try exact S.
    unfold safe_ses. cbn. apply all_set; [exact S|]. eapply inst_send_safe; [|exact H|exact NP0]. exact (all_get _ _ _ _ S G).
  - eapply initiate_safe; eassumption.
  - eapply OI; [exact H|exact NP0|]. intros i0 i1 o1 x1 Q1 Q2 Q3. exact (reset_safe _ _ _ _ _ _ Q1 Q2 Q3).
  - unfold ses_query in H. destruct (query s); fin3 H; exact S || congruence.
  - eapply OI; [exact H|exact NP0|]. intros i0 i1 o1 x1 Q1 Q2 Q3. exact (start_smp_safe _ _ _ _ _ _ _ _ Q1 Q2 Q3).
  - eapply OI; [exact H|exact NP0|]. intros i0 i1 o1 x1 Q1 Q2 Q3. exact (abort_smp_safe _ _ _ _ _ _ Q1 Q2 Q3).
  - unfold expire in H. destruct (expire_all C (se_details s) es timeout (se_instances s)) as [[l o] x] eqn:E.
    assert (X : x <> Panic). { intros ->. fin3 H. congruence. }
    apply expire_all_inv in E; [|exact X]. destruct E as [_ E].
    assert (Q : s' = with_instances s l) by (destruct x; fin3 H; congruence). subst s'.
    unfold safe_ses, all_inst. cbn. apply Forall_forall. intros [t i'] IN. apply E in IN. destruct IN as (i & IN & Q).
    unfold safe_ses, all_inst in S. rewrite Forall_forall in S. specialize (S _ IN). cbn in S.
    destruct Q as [->|[-> _]]; [exact S|]. now apply safe_set_state.
Qed.
Lemma history_safe d h s : history C d h s -> safe_ses s.
Proof.
  intros H. induction H as [|h s es o s' out r _ IH E NP].
  - constructor; [apply safe_new|constructor].
  - eapply call_safe; eassumption.
Qed.

End WithCrypto.
