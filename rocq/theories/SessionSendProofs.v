(* Sessions: sending, ending, expiring, and how the status of an instance changes over a history. *)
From Verif Require Import Base BaseLemmas Types Crypto Encoding EncodingProofs Messages Fragment KeyManager DataV3
  Ratchet DataV4 AKE DAKE SMP SMP4 Protocol Session SpecSession SessionProofs SessionPartyProofs SessionInvProofs.
From Coq Require Import Lia ZifyN ZifyNat.
Local Open Scope N_scope.

(** ** Encrypting never fails with an error *)

Lemma bind_no_err {A B} (m : res A) (f : A -> res B) x :
  (forall y, m <> Err y) -> (forall a, f a <> Err x) -> bind m f <> Err x.
Proof. intros M F. destruct m; cbn [bind]; [apply F|now destruct (M e)|discriminate]. Qed.
Lemma expect_no_err {A} (m : res A) x : expect m <> Err x.
Proof. destruct m; discriminate. Qed.
Lemma u32_succ_no_err n x : u32_succ n <> Err x.
Proof. unfold u32_succ. destruct (_ : bool); discriminate. Qed.
Ltac noerr := repeat first [ discriminate | apply expect_no_err | apply u32_succ_no_err
  | apply bind_no_err; intros | match goal with
    | |- context [if ?c then _ else _] => destruct c
    | |- context [let '(_, _) := ?c in _] => destruct c
    | |- context [match ?c with Some _ => _ | None => _ end] => destruct c end ].
Lemma encrypt4_no_err C a b d i c r rnd x : encrypt4 C a b d i c r rnd <> Err x.
Proof.
  unfold encrypt4, dr_collect_reveals, dr_rotate_sender, mixed_rotate_keypairs, ecdh_generate, ratchet_keys, dr_rotate_sender_chainkey, ratchet_rotate, random_in_Zq, prune, decode_scalar.
  noerr.
Qed.
Lemma encrypt3_no_err C a b k i c x : encrypt3 C a b k i c <> Err x.
Proof.
  unfold encrypt3, km_take_counter, ctr_take, kr_next, data_derive, km_get_reveal_macs. noerr.
Qed.

Lemma set_get_same t i l : get_inst t l = Some i -> set_inst t i l = l.
Proof.
  induction l as [|[k j] r IH]; cbn [get_inst set_inst]; [easy|].
  destruct (k =? t); [now intros [= ->]|]. intros H. now rewrite IH.
Qed.
Lemma put_same s t i : get_inst t (se_instances s) = Some i -> put s t i = s.
Proof. intros G. unfold put, with_instances. rewrite set_get_same by assumption. now destruct s. Qed.
Lemma state_get s t i : get_inst t (se_instances s) = Some i -> state_of s t = in_state i.
Proof. intros G. unfold state_of. now rewrite G. Qed.
Lemma status_some s t st : status_of s t = st -> st <> Plaintext ->
  exists i, get_inst t (se_instances s) = Some i /\ in_status i = st /\ state_of s t = in_state i.
Proof.
  unfold status_of, state_of, in_status. destruct (get_inst t (se_instances s)) as [i|]; [eauto|].
  cbn [p_status]. congruence.
Qed.
Lemma enabled_not_disabled d : enabled d -> otr_disabled (de_policy d) = false.
Proof. unfold enabled, allowed, otr_disabled. intros [-> | ->]; [reflexivity|apply andb_false_r]. Qed.
Lemma disabled_not_enabled d : otr_disabled (de_policy d) = true <-> ~ enabled d.
Proof.
  unfold enabled, allowed, otr_disabled. destruct (allow_v3 _), (allow_v4 _); cbn [negb andb]; intuition congruence.
Qed.
Lemma query_eq s : enabled (se_details s) ->
  exists v, preferred (se_details s) v /\ query s = Ok [query_message v].
Proof.
  unfold enabled, preferred, allowed, query, filter_versions, SUPPORTED_VERSIONS.
  destruct (allow_v4 _).
  - intros _. exists V4. split; [auto|reflexivity].
  - intros [E|E]; [|discriminate]. rewrite E. exists V3. split; [right; auto|reflexivity].
Qed.

Section WithCrypto.
Context (C : Crypto).

Lemma run_inv s0 h s : run C s0 h s -> sinv s0 -> sinv s /\ se_details s = se_details s0.
Proof.
  intros R I. induction R as [|h s es o s' out r R IH Hc NP]; [auto|].
  destruct IH as [J D]. apply sinv_call in Hc; [|assumption|assumption]. destruct Hc as [A B]. now rewrite B.
Qed.
Lemma history_inv d h s : history C d h s -> sinv s /\ se_details s = d.
Proof. intros H. apply run_inv in H; [exact H|apply sinv_new]. Qed.

(** ** Encrypted text *)

Lemma encrypt3_seals our their k :
  exists key mac_key own peer next ctr revealed, forall c m k',
    encrypt3 C our their k false c = Ok (m, k') ->
    MData m = sealed3 C our their key mac_key own peer next ctr revealed c.
Proof.
  unfold encrypt3.
  destruct (km_take_counter k) as [[k1 ctr]|x|]; cbn [bind];
    [|exists [], [], 0, 0, 0, [], []; discriminate|exists [], [], 0, 0, 0, [], []; discriminate].
  destruct (pr_current (km_theirs k1)) as [rid rkey], (kr_current (km_ours k1)) as [oid odh].
  destruct (kr_next (km_ours k1)) as [[nid next]|x|]; cbn [bind];
    [|exists [], [], 0, 0, 0, [], []; discriminate|exists [], [], 0, 0, 0, [], []; discriminate].
  destruct (data_derive C _ _ _) as [sec|x|]; cbn [bind];
    [|exists [], [], 0, 0, 0, [], []; discriminate|exists [], [], 0, 0, 0, [], []; discriminate].
  destruct (km_get_reveal_macs k1) as [[k2 old]|x|]; cbn [bind];
    [|exists [], [], 0, 0, 0, [], []; intros; destruct (all_zero _); discriminate
     |exists [], [], 0, 0, 0, [], []; intros; destruct (all_zero _); discriminate].
  exists (ds_send sec), (sender_mac_key C sec), oid, rid, (dh_public next), ctr, old.
  intros c m k' H. destruct (all_zero _); [discriminate|]. destruct (_ && _); [discriminate|].
  destruct (all_zero _); [discriminate|]. injection H as <- <-. reflexivity.
Qed.
Lemma encrypt4_seals our their d rv rnd :
  exists key mac_key pn i j pt dh revealed, forall c m d',
    encrypt4 C our their d false c rv rnd = Ok (m, d') ->
    MData4 m = sealed4 C our their key mac_key pn i j pt dh revealed c.
Proof.
  unfold encrypt4.
  destruct (if selector_eqb _ _ then _ else _) as [[d1 rv1]|x|]; cbn [bind];
    [|exists [], [], 0, 0, 0, pt_id, None, []; discriminate|exists [], [], 0, 0, 0, pt_id, None, []; discriminate].
  destruct (ratchet_keys C (dr_sender d1)) as [[mk mm]|x|]; cbn [bind];
    [|exists [], [], 0, 0, 0, pt_id, None, []; discriminate|exists [], [], 0, 0, 0, pt_id, None, []; discriminate].
  exists (extract_encryption_key mk), mm, (dr_pn d1), (dr_i d1 - 1), (ra_message_id (dr_sender d1)),
    (ec_public (mx_ecdh (dr_shared d1))),
    (if (dr_i d1 - 1) mod 3 =? 0 then Some (dh3_public (mx_dh (dr_shared d1))) else None), rv1.
  intros c m d' H. apply bind_ok in H. destruct H as (u & _ & H).
  apply bind_ok in H. destruct H as (d2 & _ & H). injection H as <- <-. reflexivity.
Qed.

Lemma send_encrypted e s t : sinv s -> enabled (se_details s) -> status_of s t = Encrypted ->
  (exists key mac_key own peer next ctr revealed, forall c s' out ps, send C e s t c = (s', out, Ok ps) ->
     out = [] /\ transported (se_details s) e t V3
       (sealed3 C (de_tag (se_details s)) t key mac_key own peer next ctr revealed (without_nul c)) ps)
  \/ (exists key mac_key pn i j pt dh revealed, forall c s' out ps, send C e s t c = (s', out, Ok ps) ->
     out = [] /\ transported (se_details s) e t V4
       (sealed4 C (de_tag (se_details s)) t key mac_key pn i j pt dh revealed (without_nul c)) ps).
Proof.
  intros I E S. apply enabled_not_disabled in E. apply status_some in S; [|discriminate].
  destruct S as (i & G & SI & SE). apply sinv_party with (t := t) in I as P. rewrite SE in P.
  assert (RI : in_receiver i = t) by (eapply sinv_get; eassumption).
  unfold send. rewrite E, G. unfold in_status in *. rewrite SI. cbn [status_eqb]. rewrite andb_false_r.
  destruct (in_state i) as [|our their k smp|our their dr smp|] eqn:ST; try discriminate.
  - left. destruct (encrypt3_seals our their k) as (key & mk & own & peer & next & ctr & rv & A).
    exists key, mk, own, peer, next, ctr, rv. intros c s' out ps.
    unfold inst_send. rewrite ST. cbn [p_prepare].
    destruct (encrypt3 C our their k false _) as [[m k']|x|] eqn:EN; cbn [bind]; intros H; try (fin3 H; fail);
      try (apply pair3 in H; destruct H as (_ & _ & H); discriminate).
    apply A in EN. cbn [party] in P. destruct P as [-> ->]. cbn [p_version] in H. rewrite RI in H.
    destruct (let* content := _ in _) as [l|x|] eqn:PL; apply pair3 in H; destruct H as (_ & <- & H);
      try discriminate. injection H as ->.
    split; [reflexivity|]. apply bind_ok in PL. destruct PL as (b & EB & PL).
    unfold without_nul. fold (drop_by_value c x00). rewrite <- EN. eapply payloads_transported; eassumption.
  - right. destruct (encrypt4_seals our their dr [] (ev_send e)) as (key & mk & pn & n & j & pt & dh & rv & A).
    exists key, mk, pn, n, j, pt, dh, rv. intros c s' out ps.
    unfold inst_send. rewrite ST. cbn [p_prepare].
    destruct (encrypt4 C our their dr false _ _ _) as [[m k']|x|] eqn:EN; cbn [bind]; intros H;
      try (apply pair3 in H; destruct H as (_ & _ & H); discriminate).
    apply A in EN. cbn [party] in P. destruct P as [-> ->]. cbn [p_version] in H. rewrite RI in H.
    destruct (let* content := _ in _) as [l|x|] eqn:PL; apply pair3 in H; destruct H as (_ & <- & H);
      try discriminate. injection H as ->.
    split; [reflexivity|]. apply bind_ok in PL. destruct PL as (b & EB & PL).
    unfold without_nul. fold (drop_by_value c x00). rewrite <- EN. eapply payloads_transported; eassumption.
Qed.

Lemma send_private_out e s t c s' out r : enabled (se_details s) -> status_of s t <> Plaintext ->
  send C e s t c = (s', out, r) -> out = [].
Proof.
  intros E S. apply enabled_not_disabled in E. unfold send. rewrite E.
  unfold status_of, state_of in S. destruct (get_inst t (se_instances s)) as [i|] eqn:G.
  - assert (status_eqb (in_status i) Plaintext = false) as ->.
    { unfold in_status. destruct (p_status (in_state i)); [congruence|reflexivity|reflexivity]. }
    rewrite andb_false_r. destruct (inst_send _ _ _ _ _ _) as [[i' tg] [x|x|]]; congruence.
  - congruence.
Qed.
Lemma send_finished e s t c : enabled (se_details s) -> status_of s t = Finished ->
  send C e s t c = (s, [], Err IncorrectState).
Proof.
  intros E S. apply enabled_not_disabled in E. apply status_some in S; [|discriminate].
  destruct S as (i & G & SI & SE).
  unfold send. rewrite E, G. rewrite SI. cbn [status_eqb]. rewrite andb_false_r.
  unfold inst_send. unfold in_status in SI. destruct (in_state i) eqn:ST; try discriminate. cbn [p_prepare].
  rewrite set_get_same by assumption. now destruct s.
Qed.
Lemma send_required e s t c : enabled (se_details s) -> require_encryption (de_policy (se_details s)) = true ->
  get_inst t (se_instances s) <> None -> status_of s t = Plaintext ->
  exists v, preferred (se_details s) v /\ send C e s t c = (s, [query_message v], Err PolicyRestriction).
Proof.
  intros E RQ K S. destruct (query_eq s E) as (v & PV & Q). apply enabled_not_disabled in E.
  exists v. split; [assumption|]. unfold send. rewrite E. unfold status_of, state_of in S.
  destruct (get_inst t _) as [i|] eqn:G; [|congruence]. unfold in_status. now rewrite RQ, S, Q.
Qed.
(* in plaintext: the text, possibly with the tag *)
Lemma send_plain e s t c s' out r : enabled (se_details s) -> require_encryption (de_policy (se_details s)) = false ->
  get_inst t (se_instances s) <> None -> status_of s t = Plaintext -> send C e s t c = (s', out, r) ->
  out = [] /\
  ((exists v, send_whitespace_tag (de_policy (se_details s)) = true /\ se_tagged s = false /\
      preferred (se_details s) v /\ r = Ok [whitespace_tag v ++ without_nul c] /\ se_tagged s' = true)
   \/ ((send_whitespace_tag (de_policy (se_details s)) = false \/ se_tagged s = true) /\
       r = Ok [without_nul c] /\ se_tagged s' = se_tagged s)).
Proof.
  intros E RQ K S H. unfold send in H. rewrite (enabled_not_disabled _ E) in H. unfold status_of, state_of in S.
  destruct (get_inst t _) as [i|] eqn:G; [|congruence]. rewrite RQ in H. cbn [andb] in H.
  unfold inst_send in H. destruct (in_state i) eqn:ST; try discriminate. cbn [p_prepare p_status status_eqb negb] in H.
  unfold filter_versions, SUPPORTED_VERSIONS in H. unfold enabled, preferred, allowed in *.
  unfold without_nul, whitespace_tag. fold (drop_by_value c x00).
  destruct (send_whitespace_tag _), (se_tagged s) eqn:TG; cbn [andb negb] in H; try (fin3 H; auto 8).
  destruct (allow_v4 _).
  - cbn in H. fin3 H. split; [reflexivity|]. left. exists V4. auto 8.
  - destruct E as [E|E]; [|discriminate]. rewrite E in H. cbn in H. fin3 H.
    split; [reflexivity|]. left. exists V3. auto 10.
Qed.

(** ** Ending *)

Lemma end_encrypted e s t s' out r : sinv s -> status_of s t = Encrypted ->
  end_session C e s t = (s', out, r) -> r <> Panic ->
  (exists v m, goodbye C (ev_send e) (state_of s t) v m /\ transported (se_details s) e t v m out /\
     r = Ok (UMReset t) /\ state_of s' t = PPlain /\ se_tagged s' = se_tagged s /\
     forall u, u <> t -> get_inst u (se_instances s') = get_inst u (se_instances s))
  \/ (exists x, r = Err x /\ s' = s /\ out = []).
Proof.
  intros I S H NP. apply status_some in S; [|discriminate]. destruct S as (i & G & SI & SE).
  unfold end_session in H. apply on_instance_inv in H; [|assumption].
  destruct H as [(G' & _) | (i1 & i' & G' & H & ->)]; [congruence|]. rewrite G in G'. injection G' as <-.
  assert (RI : in_receiver i = t) by (eapply sinv_get; eassumption).
  unfold inst_reset in H. rewrite SI in H. cbn [status_eqb] in H.
  unfold in_status in SI. rewrite SE. destruct (in_state i) as [|our their k smp|our their dr smp|] eqn:ST; try discriminate;
    cbn [p_finish] in H.
  - destruct (encrypt3 C our their k true DISCONNECT_CONTENT) as [[m k']|x|] eqn:EN; cbn [bind] in H.
    + apply injecting_inv in H. destruct H as [(J & -> & ->) | [(? & E0 & _) | (_ & ->)]];
        [|now apply inject_no_err in E0|congruence].
      apply inject_transported in J. cbn [p_version] in J. left. exists V3, (MData m). rewrite RI in *.
      split; [cbn [goodbye]; eauto 6|]. split; [exact J|]. split; [reflexivity|].
      split; [now rewrite state_put_same|]. split; [reflexivity|]. intros u NU. apply get_put_other. congruence.
    + fin3 H. right. exists x. split; [reflexivity|]. split; [now apply put_same|reflexivity].
    + fin3 H. congruence.
  - destruct (final4 C our their dr (ev_send e)) as [[m k']|x|] eqn:EN; cbn [bind] in H.
    + apply injecting_inv in H. destruct H as [(J & -> & ->) | [(? & E0 & _) | (_ & ->)]];
        [|now apply inject_no_err in E0|congruence].
      apply inject_transported in J. cbn [p_version] in J. left. exists V4, (MData4 m). rewrite RI in *.
      split. { cbn [goodbye]. split; [reflexivity|]. exists m, k'. split; [reflexivity|].
               unfold final4 in EN. destruct (dr_collect_reveals dr). exact EN. }
      split; [exact J|]. split; [reflexivity|].
      split; [now rewrite state_put_same|]. split; [reflexivity|]. intros u NU. apply get_put_other. congruence.
    + fin3 H. right. exists x. split; [reflexivity|]. split; [now apply put_same|reflexivity].
    + fin3 H. congruence.
Qed.
Lemma end_plaintext e s t : get_inst t (se_instances s) <> None -> status_of s t = Plaintext ->
  end_session C e s t = (s, [], Ok UMNone).
Proof.
  intros K S. unfold end_session, on_instance. unfold status_of, state_of in S.
  destruct (get_inst t _) as [i|] eqn:G; [|congruence]. unfold inst_reset, in_status.
  destruct (in_state i) eqn:ST; try discriminate. cbn [p_finish p_status status_eqb].
  assert (set_state i PPlain = i) as -> by (destruct i as [a b c d0 e0]; cbn [in_state] in ST; now subst).
  now rewrite put_same.
Qed.
Lemma end_finished e s t : sinv s -> status_of s t = Finished ->
  exists s', end_session C e s t = (s', [], Ok (UMReset t)) /\ state_of s' t = PPlain /\ se_tagged s' = se_tagged s /\
    forall u, u <> t -> get_inst u (se_instances s') = get_inst u (se_instances s).
Proof.
  intros I S. apply status_some in S; [|discriminate]. destruct S as (i & G & SI & SE).
  assert (RI : in_receiver i = t) by (eapply sinv_get; eassumption).
  unfold end_session, on_instance. rewrite G. unfold inst_reset. rewrite SI.
  unfold in_status in SI. destruct (in_state i) eqn:ST; try discriminate. cbn [p_finish status_eqb]. rewrite RI.
  eexists. split; [reflexivity|]. split; [now rewrite state_put_same|]. split; [reflexivity|].
  intros u NU. apply get_put_other. congruence.
Qed.

(** ** Expiring *)

Lemma idle_expired now timeout i : idle now timeout (in_state i) <-> expired now timeout i = true.
Proof.
  unfold idle, expired. split.
  - intros (our & their & d & smp & -> & L). now apply N.leb_le.
  - destruct (in_state i) as [|? ? ? ?|our their d smp|]; try discriminate. intros L. apply N.leb_le in L. eauto 8.
Qed.

Lemma expire_all_ok d es timeout l l' out :
  expire_all C d es timeout l = (l', out, Ok tt) ->
  map fst l' = map fst l /\
  (forall t i, In (t, i) l ->
     (idle (ev_now (es t)) timeout (in_state i) -> In (t, set_state i PFin) l') /\
     (~ idle (ev_now (es t)) timeout (in_state i) -> In (t, i) l')) /\
  exists outs, out = concat outs /\
    Forall2 (fun '(t, i) o =>
      (~ idle (ev_now (es t)) timeout (in_state i) /\ o = []) \/
      (idle (ev_now (es t)) timeout (in_state i) /\
       exists m, goodbye C (ev_send (es t)) (in_state i) V4 m /\ transported d (es t) (in_receiver i) V4 m o)) l outs.
Proof.
  revert l' out. induction l as [|[t i] l IH]; cbn [expire_all]; intros l' out H.
  - apply pair3 in H. destruct H as (<- & <- & _). split; [reflexivity|]. split; [easy|].
    exists []. split; [reflexivity|constructor].
  - destruct (inst_expire C d (es t) i timeout) as [[i1 o1] x1] eqn:E.
    destruct x1 as [[]|x|]; [|apply pair3 in H; destruct H as (_ & _ & H); discriminate
      |apply pair3 in H; destruct H as (_ & _ & H); discriminate].
    destruct (expire_all C d es timeout l) as [[l1 o2] x2] eqn:EA.
    apply pair3 in H. destruct H as (<- & <- & ->).
    destruct (IH _ _ eq_refl) as (K & A & outs & -> & F). cbn [map fst]. split; [now rewrite K|].
    apply expire_inst in E; [|congruence].
    destruct E as [(X & -> & -> & _) | [(X & -> & _ & our & their & dr & smp & m & dr' & ST & FI & T) | (x & E & _)]];
      [| |discriminate].
    + assert (NI : ~ idle (ev_now (es t)) timeout (in_state i)) by (rewrite idle_expired; congruence).
      split.
      * intros t0 i0 [I0|I0].
        -- injection I0 as <- <-. split; [easy|now left].
        -- destruct (A _ _ I0) as [A1 A2]. split; intros; right; auto.
      * exists ([] :: outs). split; [reflexivity|]. constructor; [now left|assumption].
    + apply idle_expired in X. split.
      * intros t0 i0 [I0|I0].
        -- injection I0 as <- <-. split; [now left|easy].
        -- destruct (A _ _ I0) as [A1 A2]. split; intros; right; auto.
      * exists (o1 :: outs). split; [reflexivity|]. constructor; [|assumption]. right. split; [assumption|].
        exists (MData4 m). split; [|exact T]. rewrite ST. cbn [goodbye]. split; [reflexivity|].
        exists m, dr'. split; [reflexivity|]. unfold final4 in FI. destruct (dr_collect_reveals dr). exact FI.
Qed.

Lemma expire_ok es s timeout s' out : sinv s -> expire C es s timeout = (s', out, Ok tt) ->
  se_tagged s' = se_tagged s /\
  (forall t, (idle (ev_now (es t)) timeout (state_of s t) -> state_of s' t = PFin) /\
             (~ idle (ev_now (es t)) timeout (state_of s t) ->
                get_inst t (se_instances s') = get_inst t (se_instances s))) /\
  exists outs, out = concat outs /\
    Forall2 (fun t o =>
      (~ idle (ev_now (es t)) timeout (state_of s t) /\ o = []) \/
      (idle (ev_now (es t)) timeout (state_of s t) /\
       exists m, goodbye C (ev_send (es t)) (state_of s t) V4 m /\ transported (se_details s) (es t) t V4 m o))
      (map fst (se_instances s)) outs.
Proof.
  intros I H. unfold expire in H.
  destruct (expire_all C (se_details s) es timeout (se_instances s)) as [[l' o] x] eqn:E.
  destruct x as [[]|x|]; apply pair3 in H; destruct H as (<- & <- & H); try discriminate. clear H.
  apply expire_all_ok in E. destruct E as (K & A & outs & -> & F). split; [reflexivity|].
  assert (ND : NoDup (map fst l')) by (rewrite K; exact (si_nodup _ I)).
  split.
  - intros t. unfold state_of. cbn [with_instances se_instances].
    destruct (get_inst t (se_instances s)) as [i|] eqn:G.
    + destruct (A t i (get_in _ _ _ G)) as [A1 A2]. split.
      * intros X. rewrite (in_get _ _ _ ND (A1 X)). reflexivity.
      * intros X. now apply in_get; auto.
    + split; [intros (? & ? & ? & ? & X & _); discriminate|]. intros _.
      destruct (get_inst t l') eqn:G'; [|reflexivity]. exfalso.
      assert (X : In t (map fst l')) by (apply in_keys; congruence). rewrite K in X. apply in_keys in X. congruence.
  - exists outs. split; [reflexivity|].
    assert (IN : forall t i, In (t, i) (se_instances s) -> state_of s t = in_state i /\ in_receiver i = t).
    { intros t i X. apply in_get in X; [|exact (si_nodup _ I)]. split; [now apply state_get|eapply sinv_get; eassumption]. }
    clear - F IN. revert F IN. generalize (se_instances s). intros l F.
    induction F as [|[t i] o l outs HD F IH]; intros IN; cbn [map fst]; constructor.
    + destruct (IN t i) as [-> R]; [now left|]. now rewrite R in HD.
    + apply IH. intros. apply IN. now right.
Qed.
Lemma expire_any es s timeout s' out r t : sinv s -> expire C es s timeout = (s', out, r) -> r <> Panic ->
  state_of s' t = state_of s t \/ (idle (ev_now (es t)) timeout (state_of s t) /\ state_of s' t = PFin).
Proof.
  intros I H NP. unfold expire in H.
  destruct (expire_all C (se_details s) es timeout (se_instances s)) as [[l' o] x] eqn:E.
  assert (s' = with_instances s l' /\ r = x) as [-> ->] by (destruct x; fin3 H; auto; congruence).
  apply expire_all_inv in E; [|assumption]. destruct E as [K A].
  unfold state_of. cbn [with_instances se_instances].
  destruct (get_inst t l') as [i'|] eqn:G.
  - apply get_in in G. destruct (A _ _ G) as (i & J & D). apply in_get in J; [|exact (si_nodup _ I)].
    rewrite J. destruct D as [-> | (-> & X)]; [now left|]. right. apply idle_expired in X. auto.
  - destruct (get_inst t (se_instances s)) eqn:G'; [|now left]. exfalso.
    assert (X : In t (map fst (se_instances s))) by (apply in_keys; congruence). rewrite <- K in X.
    apply in_keys in X. congruence.
Qed.

(** ** How the status changes *)

Definition status_step (o : op) (r : res answer) (t : N) (a b : protocol_status) : Prop :=
  b = a
  \/ (b = Encrypted /\ (exists p, o = OpReceive p) /\ r = Ok (AnMessage (UMSessionStarted t)))
  \/ (a = Encrypted /\ b = Finished /\
      ((exists p c, o = OpReceive p /\ r = Ok (AnMessage (UMSessionFinished t c))) \/ exists timeout, o = OpExpire timeout))
  \/ (b = Plaintext /\ o = OpEnd t).

Lemma receive_status e s p s' out r t : receive C e s p = (s', out, r) -> r <> Panic -> sinv s ->
  status_of s' t = status_of s t
  \/ (status_of s' t = Encrypted /\ r = Ok (UMSessionStarted t))
  \/ (status_of s t = Encrypted /\ status_of s' t = Finished /\ exists c, r = Ok (UMSessionFinished t c)).
Proof.
  intros H NP I. apply receive_split in H; [|assumption].
  assert (SS : status_of (stored s p) t = status_of s t) by (unfold status_of; now rewrite stored_state).
  destruct H as [(_ & -> & _) | [(_ & b & _ & H) | (_ & _ & _ & [-> | (-> & _)] & _)]]; auto.
  apply sinv_stored with (p := p) in I. rewrite <- SS. clear SS. revert H I. generalize (stored s p). clear s.
  intros s H I.
  assert (INI : forall v s1 o1 r1, initiate C e s v 0 = (s1, o1, r1) -> r1 <> Panic -> status_of s1 t = status_of s t).
  { intros v s1 o1 r1 X NPX. apply initiate_inv in X; [|assumption]. destruct X as (i' & _ & -> & S & _).
    unfold status_of. destruct (N.eq_dec 0 t) as [<-|NE]; [now rewrite state_put_same, S|now rewrite state_put_other]. }
  apply message_split in H; [|assumption].
  destruct H as [(x & _ & -> & _) | [(c & _ & -> & _) | [(c & _ & H) | [(vs & c & _ & H) | [(vs & _ & H) | (em & _ & H)]]]]];
    auto.
  - apply deliver_inv in H; [|assumption]. destruct H as (-> & _). auto.
  - destruct H as [(_ & H) | (_ & v & s1 & r1 & _ & H1 & NP1 & H)].
    + apply deliver_inv in H; [|assumption]. destruct H as (-> & _). auto.
    + apply INI in H1; [|assumption]. destruct H as [(_ & H) | (-> & _)]; [|auto].
      apply deliver_inv in H; [|assumption]. destruct H as (-> & _). auto.
  - destruct H as [(_ & -> & _) | (v & r1 & _ & H1 & H)]; [auto|]. left.
    eapply INI; [exact H1|]. destruct H as [((m & ->) & _) | (_ & x & ->)]; congruence.
  - apply encoded_split in H; [|assumption].
    destruct H as [(-> & _) | [(-> & _) | (_ & NZ & _ & i0 & i' & A & H & ->)]]; auto.
    apply handle_moves in H; [|assumption]. destruct H as [M R]. apply adopted_same in A. destruct A as (S0 & R0 & _).
    rewrite (sinv_entry _ _ I) in R0. unfold status_of. destruct (N.eq_dec (em_sender em) t) as [E|NE].
    + rewrite <- E. rewrite state_put_same. unfold moves, in_status in M. rewrite R0, S0, entry_state in M. tauto.
    + left. now rewrite state_put_other.
Qed.

Lemma call_status es s o s' out r t : call C es s o = (s', out, r) -> r <> Panic -> sinv s ->
  status_step o r t (status_of s t) (status_of s' t).
Proof.
  intros H NP I. unfold call in H. unfold status_step.
  assert (ANS : forall A (f : A -> answer) x, answering f x = (s', out, r) ->
     exists r0, x = (s', out, r0) /\ r = res_map f r0 /\ r0 <> Panic).
  { intros A f [[s1 o1] r1] X. unfold answering in X. fin3 X. exists r1.
    split; [reflexivity|]. split; [reflexivity|]. intros ->. now apply NP. }
  assert (OI : forall A (f : instance -> effect instance A) u r0, on_instance s u f = (s', out, r0) -> r0 <> Panic ->
     (forall i i' o x, f i = (i', o, x) -> x <> Panic -> in_status i' = in_status i) ->
     status_of s' t = status_of s t).
  { intros A f u r0 X NP0 F. apply on_instance_inv in X; [|assumption].
    destruct X as [(_ & -> & _) | (i & i' & G & X & ->)]; [auto|].
    specialize (F _ _ _ _ X NP0). unfold status_of. destruct (N.eq_dec u t) as [<-|NE].
    - now rewrite state_put_same, (state_get _ _ _ G).
    - now rewrite state_put_other. }
  destruct o; apply ANS in H; destruct H as (r0 & H & -> & NP0).
  - apply receive_status with (t := t) in H; [|assumption|assumption].
    destruct H as [H|[(H & ->) | (H & H' & c & ->)]]; cbn [res_map]; eauto 12.
  - left. apply send_inv in H; [|assumption].
    destruct H as [(_ & -> & _) | (_ & [(_ & -> & _) | (i & G & [(_ & _ & -> & _) | (_ & _ & i' & tg & S & ->)])])]; auto.
    apply send_moves in S; [|assumption]. destruct S as (S1 & _).
    unfold status_of, state_of. cbn [se_instances]. destruct (N.eq_dec tag t) as [<-|NE].
    + now rewrite get_set_same, G.
    + now rewrite get_set_other.
  - left. apply initiate_inv in H; [|assumption]. destruct H as (i' & _ & -> & S & _).
    unfold status_of. destruct (N.eq_dec tag t) as [<-|NE]; [now rewrite state_put_same, S|now rewrite state_put_other].
  - unfold end_session in H. apply on_instance_inv in H; [|assumption].
    destruct H as [(_ & -> & _) | (i & i' & G & X & ->)]; [auto|]. unfold status_of.
    destruct (N.eq_dec tag t) as [<-|NE]; [|left; now rewrite state_put_other].
    rewrite state_put_same, (state_get _ _ _ G). apply reset_effect in X; [|assumption].
    destruct X as [-> | (-> & _)]; [|auto]. right. right. right. auto.
  - left. unfold ses_query in H. destruct (query s); fin3 H; auto.
  - left. eapply OI; [exact H|assumption|]. intros i i' o x X NX. apply start_smp_moves in X; [apply X|assumption].
  - left. eapply OI; [exact H|assumption|]. intros i i' o x X NX. apply abort_smp_moves in X; [apply X|assumption].
  - apply expire_any with (t := t) in H; [|assumption|assumption]. unfold status_of.
    destruct H as [-> | ((? & ? & ? & ? & -> & _) & ->)]; [auto|]. right. right. left. eauto 6.
Qed.


Lemma final4_no_err our their d rnd x : final4 C our their d rnd <> Err x.
Proof. unfold final4. destruct (dr_collect_reveals d). apply encrypt4_no_err. Qed.
Lemma finish_no_err st rnd x : p_finish C st rnd <> Err x.
Proof.
  destruct st; cbn [p_finish]; try discriminate; intros H.
  - destruct (encrypt3 C _ _ _ _ _) as [[m k']|y|] eqn:E; cbn [bind] in H; try discriminate. now apply encrypt3_no_err in E.
  - destruct (final4 C _ _ _ _) as [[m k']|y|] eqn:E; cbn [bind] in H; try discriminate. now apply final4_no_err in E.
Qed.
Lemma reset_no_err d e i i' out x : inst_reset C d e i = (i', out, Err x) -> False.
Proof.
  unfold inst_reset. destruct (p_finish C _ _) as [[m|]|y|] eqn:P; intros H.
  - destruct (status_eqb _ _); [apply pair3 in H; destruct H as (_ & _ & H); discriminate|].
    apply injecting_inv in H. destruct H as [(_ & _ & H) | [(? & E0 & _) | (_ & H)]]; try discriminate.
    now apply inject_no_err in E0.
  - destruct (status_eqb _ _); apply pair3 in H; destruct H as (_ & _ & H); discriminate.
  - now apply finish_no_err in P.
  - apply pair3 in H. destruct H as (_ & _ & H). discriminate.
Qed.
Lemma end_sends e s t s' out r : sinv s -> status_of s t = Encrypted ->
  end_session C e s t = (s', out, r) -> r <> Panic ->
  exists v m, goodbye C (ev_send e) (state_of s t) v m /\ transported (se_details s) e t v m out /\
     r = Ok (UMReset t) /\ state_of s' t = PPlain /\ se_tagged s' = se_tagged s /\
     forall u, u <> t -> get_inst u (se_instances s') = get_inst u (se_instances s).
Proof.
  intros SI SE H NP. pose proof H as H0. apply end_encrypted in H; [|assumption..].
  destruct H as [H | (x & -> & _)]; [exact H|]. exfalso.
  unfold end_session in H0. apply on_instance_inv in H0; [|assumption].
  destruct H0 as [(G & _) | (i & i' & _ & H0 & _)].
  - unfold status_of, state_of in SE. now rewrite G in SE.
  - now apply reset_no_err in H0.
Qed.
Lemma expire_all_total d es timeout l l' out r : expire_all C d es timeout l = (l', out, r) -> r <> Panic -> r = Ok tt.
Proof.
  revert l' out r. induction l as [|[t i] l IH]; cbn [expire_all]; intros l' out r H NP.
  - now fin3 H.
  - destruct (inst_expire C d (es t) i timeout) as [[i' o] r0] eqn:E. destruct r0 as [u|x|].
    + destruct (expire_all C d es timeout l) as [[l1 o1] r1] eqn:EA. fin3 H. eapply IH; eauto.
    + exfalso. apply expire_inst in E; [|discriminate].
      destruct E as [(_ & _ & _ & ?) | [(_ & _ & ? & _) | (y & _ & _ & _ & our & their & dr & smp & _ & F)]]; try discriminate.
      now apply final4_no_err in F.
    + fin3 H. congruence.
Qed.
Lemma expire_total es s timeout s' out r : expire C es s timeout = (s', out, r) -> r <> Panic -> r = Ok tt.
Proof.
  unfold expire. destruct (expire_all C _ es timeout _) as [[l o] r0] eqn:E. intros H NP.
  destruct r0 as [u|x|]; fin3 H; [|apply expire_all_total in E; [assumption|assumption]|congruence].
  now destruct u.
Qed.
End WithCrypto.
