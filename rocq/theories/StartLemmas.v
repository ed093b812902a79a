(* C56, C58 and C59 for all sessions. *)
From Verif Require Import Base BaseLemmas Types Crypto CryptoProofs Encoding EncodingProofs ClientProfile Messages Fragment KeyManager DataV3 Ratchet DataV4
  AKE DAKE SMP SMP4 Protocol Session SpecWire SpecSession SpecStart SessionProofs SessionPartyProofs SessionInvProofs SessionSendProofs
  SessionRecvProofs SessionHistProofs SessionLemmas NetAKEProofs StartProofs.
From Coq Require Import Lia ZifyN ZifyNat.
Local Open Scope N_scope.

Section WithCrypto.
Context (C : Crypto).
Arguments at_ : simpl never.

(** ** C56 *)

Lemma queries_enabled d p v : queries C d p v -> enabled d.
Proof.
  intros (_ & vs & _ & [(_ & A & _)|(_ & _ & A & _)]); [right|left]; exact A.
Qed.

Lemma query_v3 d h s e p s' out r s0 out0 r0 : history C d h s -> queries C d p V3 ->
  receive C e s p = (s', out, r) -> receive C e (session_new d) p = (s0, out0, r0) -> out = out0 /\ r = r0.
Proof.
  intros H Q R R0. pose proof (queries_enabled _ _ _ Q) as EN. destruct (history_inv C d h s H) as [I D].
  eapply query_same with (v := V3) (s := s) (s0 := session_new d); try eassumption; try (rewrite D; assumption); try easy.
  apply sinv_new.
Qed.
Lemma query_v4 d h s e p s' out r s0 out0 r0 : history C d h s -> queries C d p V4 -> no_new_start4 d h ->
  receive C e s p = (s', out, r) -> receive C e (session_new d) p = (s0, out0, r0) -> out = out0 /\ r = r0.
Proof.
  intros H Q N R R0. pose proof (queries_enabled _ _ _ Q) as EN. destruct (history_inv C d h s H) as [I D].
  eapply query_same with (v := V4) (s := s) (s0 := session_new d); try eassumption; try (rewrite D; assumption).
  - apply sinv_new.
  - intros _. apply (dake0_fresh C) in H; [|assumption]. rewrite H. reflexivity.
Qed.

Lemma put_same s t : get_inst t (se_instances s) <> None -> put s t (at_ s t) = s.
Proof.
  intros G. unfold put, with_instances, at_, entry. destruct s as [d l w]. cbn [se_instances se_details se_tagged] in *. f_equal.
  destruct (get_inst t l) as [i|] eqn:E; [|congruence]. clear G.
  induction l as [|[k j] r IH]; cbn [get_inst set_inst] in *; [discriminate|]. destruct (k =? t) eqn:K.
  - apply N.eqb_eq in K. congruence.
  - f_equal. auto.
Qed.
Lemma query_deaf d h s e p ev : history C d h s -> In ev h -> answered_query C d V4 ev -> queries C d p V4 ->
  receive C e s p = (s, [], Err IncorrectState).
Proof.
  intros H IN A Q. pose proof (queries_enabled _ _ _ Q) as EN. destruct (history_inv C d h s H) as [I D].
  destruct (waiting_answered C d h s ev V4 H EN IN A) as (w & W). destruct Q as (MF & vs & PA & CH).
  apply select_chosen in CH. apply enabled_not_disabled in EN.
  unfold receive. rewrite D, EN, MF. unfold receive_message. rewrite PA, D, CH.
  unfold initiate, on_entry. fold (at_ s 0). unfold inst_initiate, dake0 in *. unfold dake_initiate. rewrite W.
  assert (set_dake (at_ s 0) (DakeAwaitingAuthR w) = at_ s 0) as ->.
  { rewrite <- W. unfold set_dake. now destruct (at_ s 0). }
  rewrite put_same; [reflexivity|]. destruct (si_zero _ I) as (z & Z & _). congruence.
Qed.
Lemma query_v4_either d h s e p s' out r s0 out0 r0 : history C d h s -> queries C d p V4 ->
  receive C e s p = (s', out, r) -> receive C e (session_new d) p = (s0, out0, r0) ->
  (out = out0 /\ r = r0) \/ (s' = s /\ out = [] /\ r = Err IncorrectState).
Proof.
  intros H Q R R0. pose proof (queries_enabled _ _ _ Q) as EN. destruct (history_inv C d h s H) as [I D].
  destruct (dake0_history C d h s H) as [(w & W)|W].
  - right. destruct Q as (MF & vs & PA & CH). apply select_chosen in CH. apply enabled_not_disabled in EN.
    unfold receive in R. rewrite D, EN, MF in R. unfold receive_message in R. rewrite PA, D, CH in R.
    unfold initiate, on_entry in R. fold (at_ s 0) in R. unfold inst_initiate, dake0 in *. unfold dake_initiate in R. rewrite W in R.
    assert (set_dake (at_ s 0) (DakeAwaitingAuthR w) = at_ s 0) as E.
    { rewrite <- W. unfold set_dake. now destruct (at_ s 0). }
    rewrite E in R. rewrite put_same in R; [fin3 R; auto|]. destruct (si_zero _ I) as (z & Z & _). congruence.
  - left. eapply query_same with (v := V4) (s := s) (s0 := session_new d); try eassumption; try (rewrite D; assumption).
    + apply sinv_new.
    + intros _. rewrite W. reflexivity.
Qed.

(** ** C58, C59: what arrives *)

Lemma receive_at e s p b s' out r : enabled (se_details s) -> completes s p b ->
  receive_message C e (stored s p) b = (s', out, r) -> r <> Panic -> receive C e s p = (s', out, r).
Proof.
  intros EN CO H NP. apply enabled_not_disabled in EN. unfold receive. unfold stored in H. rewrite EN.
  destruct CO as [(M & ->) | (f & a & M & P & VF & RV & A & NF)]; rewrite M in H |- *.
  - exact H.
  - rewrite P, VF. cbn [negb]. rewrite P in H.
    assert (X : negb (fr_receiver f =? 0) && negb (fr_receiver f =? de_tag (se_details s)) = false).
    { destruct RV as [-> | ->]; rewrite N.eqb_refl; [reflexivity|apply Bool.andb_false_r]. }
    rewrite X, A, NF. rewrite A in H. cbn [fst] in H. rewrite H. destruct r; congruence.
Qed.

Lemma carried_in e s p em s' out r : enabled (se_details s) -> carries C s p em -> receive C e s p = (s', out, r) -> r <> Panic ->
  receive_encoded C e (stored s p) em = (s', out, r).
Proof.
  intros EN (b & CO & PA) H NP. apply receive_completes with (b := b) in H; try assumption.
  unfold receive_message in H. now rewrite PA in H.
Qed.
Lemma carried_out e s p em s' out r : enabled (se_details s) -> carries C s p em ->
  receive_encoded C e (stored s p) em = (s', out, r) -> r <> Panic -> receive C e s p = (s', out, r).
Proof.
  intros EN (b & CO & PA) H NP. apply receive_at with (b := b); try assumption. unfold receive_message. now rewrite PA.
Qed.
Lemma at_stored s p t : same_kx (at_ s t) (at_ (stored s p) t) /\ in_state (at_ (stored s p) t) = in_state (at_ s t).
Proof. split; [apply kx_stored|]. unfold at_. rewrite !entry_state. apply stored_state. Qed.

Definition kx_type (m : encoded_type) : Prop := match m with MData _ | MData4 _ | MUnencoded _ => False | _ => True end.
Lemma allowed_not_refused d v : v = V3 \/ v = V4 -> allowed d v ->
  (version_eqb v V3 && negb (allow_v3 (de_policy d))) || (version_eqb v V4 && negb (allow_v4 (de_policy d))) = false.
Proof. intros [-> | ->] A; cbn [allowed] in A; rewrite A; reflexivity. Qed.

(** ** Auth-I *)

(* the same keys, newly created *)
Definition retime (n : N) (d : double_ratchet) : double_ratchet :=
  mkDR n (dr_shared d) (dr_root_key d) (dr_sender d) (dr_receiver d) (dr_next d) (dr_i d) (dr_pn d) (dr_reveals d).
Definition retimed (n : N) (m : dake_material) : dake_material :=
  mkDakeMaterial (dm_ssid m) (retime n (dm_ratchet m)) (dm_us m) (dm_them m).

Lemma auth_i_again now st m a c st' mat : dake_handle_auth_i C now st m a c = (st', Ok mat) ->
  st' = st /\ dr_next (dm_ratchet mat) = RECEIVER /\ dr_reveals (dm_ratchet mat) = [] /\
  forall now', dake_handle_auth_i C now' st m a c = (st, Ok (retimed now' mat)).
Proof.
  unfold dake_handle_auth_i. destruct st as [|w|w]; try discriminate. intros H. apply pair_equal_spec in H. destruct H as [<- H].
  split; [reflexivity|].
  apply bind_ok in H. destruct H as (alice & E1 & H). apply bind_ok in H. destruct H as (bob & E2 & H).
  apply bind_ok in H. destruct H as (u & E3 & H). apply bind_ok in H. destruct H as (sh & E4 & H).
  apply bind_ok in H. destruct H as (bob' & E5 & H). injection H as <-. cbn [dm_ratchet dr_next dr_initialize dr_reveals].
  split; [reflexivity|]. split; [reflexivity|]. intros now'. rewrite E1. cbn [bind]. rewrite E2. cbn [bind]. rewrite E3. cbn [bind].
  rewrite E4. cbn [bind].
  assert (bob' = bob) as -> by congruence. reflexivity.
Qed.

(* the state in which an Auth-I message leaves client t *)
Lemma auth_i_in e s em m s' out : sinv s -> em_version em = V4 -> em_message em = MAuthI m ->
  receive_encoded C e s em = (s', out, Ok (UMSessionStarted (em_sender em))) ->
  let t := em_sender em in let d := se_details s in
  t <> 0 /\ allowed d V4 /\ verify_header d em = Ok tt /\ out = [] /\ in_dake (at_ s' t) = in_dake (at_ s t) /\
  exists mat, dake_handle_auth_i C (ev_now e) (in_dake (at_ s t)) m (de_account d) (de_address d) = (in_dake (at_ s t), Ok mat) /\
    state_of s' t = enc4_new (de_tag d) t mat.
Proof.
  intros SI V M H. cbn zeta. apply encoded_split in H; [|discriminate].
  destruct H as [(_ & _ & _ & X)|[(_ & _ & _ & x & X & _)|(VH & NZ & AL & i0 & i' & A & H & ->)]]; try discriminate.
  rewrite V in AL. split; [assumption|]. split; [assumption|]. split; [assumption|].
  assert (i0 = at_ s (em_sender em)) as ->.
  { destruct A as [->|[(zi & a & _ & (k & E) & _)|(zi & a & _ & (k & E) & _)]]; [reflexivity| |]; congruence. }
  assert (RI : in_receiver (at_ s (em_sender em)) = em_sender em) by (apply sinv_entry; assumption).
  unfold inst_handle in H. rewrite V, M in H.
  destruct (dake_handle_auth_i C (ev_now e) _ m _ _) as [st [mat|x|]] eqn:D;
    try (apply pair3 in H; destruct H as (_ & _ & H); discriminate).
  destruct (auth_i_again _ _ _ _ _ _ _ D) as (-> & _).
  unfold secure, p_secure in H. rewrite RI in H. cbn [set_dake in_state] in H.
  rewrite at_put_same, state_put_same.
  destruct (in_state (at_ s (em_sender em))); cbn [bind enc4_new p_status status_eqb] in H;
    apply pair3 in H; destruct H as (<- & <- & _);
    (split; [reflexivity|]; split; [reflexivity|]; exists mat; split; [reflexivity|reflexivity]).
Qed.
Lemma auth_i_out e s em m mat : sinv s -> em_version em = V4 -> em_message em = MAuthI m -> em_sender em <> 0 ->
  allowed (se_details s) V4 -> verify_header (se_details s) em = Ok tt ->
  let t := em_sender em in let d := se_details s in
  dake_handle_auth_i C (ev_now e) (in_dake (at_ s t)) m (de_account d) (de_address d) = (in_dake (at_ s t), Ok mat) ->
  exists s', receive_encoded C e s em = (s', [], Ok (UMSessionStarted t)) /\ state_of s' t = enc4_new (de_tag d) t mat.
Proof.
  intros SI V M NZ AL VH. cbn zeta. intros D.
  assert (RI : in_receiver (at_ s (em_sender em)) = em_sender em) by (apply sinv_entry; assumption).
  unfold receive_encoded. apply N.eqb_neq in NZ. rewrite NZ, VH, V.
  rewrite allowed_not_refused by (try assumption; now right).
  rewrite M. unfold on_entry. fold (at_ s (em_sender em)). unfold inst_handle. rewrite V, M, D.
  unfold secure, p_secure. rewrite RI. cbn [set_dake in_state in_receiver].
  destruct (in_state (at_ s (em_sender em))); cbn [bind enc4_new p_status status_eqb];
    (eexists; split; [reflexivity|rewrite state_put_same; reflexivity]).
Qed.

Lemma auth_i_replayed d h s e1 p1 em m s1 h2 s2 p2 : history C d h s -> em_version em = V4 -> em_message em = MAuthI m ->
  starts C e1 s p1 em s1 -> quiet_run C (em_sender em) s1 h2 s2 -> carries C s2 p2 em ->
  exists mat, dr_next (dm_ratchet mat) = RECEIVER /\ dr_reveals (dm_ratchet mat) = [] /\
    state_of s1 (em_sender em) = enc4_new (de_tag d) (em_sender em) mat /\
    forall e2, exists s3, receive C e2 s2 p2 = (s3, [], Ok (UMSessionStarted (em_sender em))) /\
      state_of s3 (em_sender em) = enc4_new (de_tag d) (em_sender em) (retimed (ev_now e2) mat).
Proof.
  intros H V M (CA & out & R) QR CA2. pose proof (quiet_is_run C _ _ _ _ QR) as RU. destruct (history_inv C d h s H) as [I D].
  assert (EN : enabled d).
  { destruct (otr_disabled (de_policy d)) eqn:OD.
    - unfold receive in R. rewrite D, OD in R. apply pair3 in R. destruct R as (_ & _ & R). discriminate.
    - unfold otr_disabled, enabled, allowed in *. destruct (allow_v3 _), (allow_v4 _); auto. }
  assert (I1 : sinv s1) by (eapply sinv_receive; [exact R|discriminate|assumption]).
  assert (D1 : se_details s1 = d).
  { assert (K : call C (fun _ => e1) s (OpReceive p1) = (s1, out, Ok (AnMessage (UMSessionStarted (em_sender em)))))
      by (unfold call, answering; now rewrite R).
    apply sinv_call in K; [|discriminate|assumption]. destruct K as [_ K]. congruence. }
  apply carried_in with (em := em) in R; [|now rewrite D|assumption|discriminate].
  apply auth_i_in with (m := m) in R; [|now apply sinv_stored|assumption|assumption]. cbn zeta in R.
  rewrite stored_details, D in R. destruct R as (NZ & AL & VH & _ & KD & mat & DH & ST).
  destruct (kx_stored s p1 (em_sender em)) as [_ K1]. rewrite K1 in DH, KD.
  destruct (run_inv C _ _ _ RU I1) as [I2 D2]. rewrite D1 in D2.
  destruct (quiet_kx C _ _ _ _ QR I1 NZ) as [_ K2].
  destruct (kx_stored s2 p2 (em_sender em)) as [_ K3].
  destruct (auth_i_again _ _ _ _ _ _ _ DH) as (_ & NX & RV & AG).
  exists mat. split; [assumption|]. split; [assumption|]. split; [assumption|]. intros e2.
  destruct (auth_i_out e2 (stored s2 p2) em m (retimed (ev_now e2) mat)) as (s3 & R3 & ST3); try assumption.
  - now apply sinv_stored.
  - now rewrite stored_details, D2.
  - now rewrite stored_details, D2.
  - cbn zeta. rewrite stored_details, D2, K3, K2, KD. apply AG.
  - rewrite stored_details, D2 in ST3. exists s3. split; [|assumption].
    eapply carried_out; [now rewrite D2|exact CA2|exact R3|discriminate].
Qed.

(** ** What is sent next *)

Lemma send3_out e s t c s' out ps our their k smp : sinv s -> enabled (se_details s) -> state_of s t = PEnc3 our their k smp ->
  send C e s t c = (s', out, Ok ps) ->
  exists m k', encrypt3 C (de_tag (se_details s)) t k false (without_nul c) = Ok (m, k') /\
    transported (se_details s) e t V3 (MData m) ps.
Proof.
  intros SI EN ST H. apply enabled_not_disabled in EN.
  pose proof (sinv_party _ t SI) as P. rewrite ST in P. cbn [party] in P. destruct P as [-> ->].
  unfold send in H. rewrite EN in H. unfold state_of in ST. destruct (get_inst t (se_instances s)) as [i|] eqn:G; [|discriminate].
  assert (RI : in_receiver i = t) by (exact (sinv_get _ _ _ SI G)).
  unfold in_status in H. rewrite ST in H. cbn [p_status status_eqb] in H. rewrite andb_false_r in H.
  unfold inst_send in H. rewrite ST in H. cbn [p_prepare] in H. change (drop_by_value c x00) with (without_nul c) in H.
  destruct (encrypt3 C _ t k false (without_nul c)) as [[m k']|x|]; cbn [bind] in H;
    try (apply pair3 in H; destruct H as (_ & _ & H); discriminate).
  cbn [p_version] in H. rewrite RI in H.
  destruct (let* content := _ in _) as [l|x|] eqn:PL; apply pair3 in H; destruct H as (_ & _ & H); try discriminate.
  injection H as ->. apply bind_ok in PL. destruct PL as (b & EB & PL). exists m, k'. split; [reflexivity|].
  eapply payloads_transported; eassumption.
Qed.
Lemma send4_out e s t c s' out ps our their dr smp : sinv s -> enabled (se_details s) -> state_of s t = PEnc4 our their dr smp ->
  send C e s t c = (s', out, Ok ps) ->
  exists m dr', encrypt4 C (de_tag (se_details s)) t dr false (without_nul c) [] (ev_send e) = Ok (m, dr') /\
    transported (se_details s) e t V4 (MData4 m) ps.
Proof.
  intros SI EN ST H. apply enabled_not_disabled in EN.
  pose proof (sinv_party _ t SI) as P. rewrite ST in P. cbn [party] in P. destruct P as [-> ->].
  unfold send in H. rewrite EN in H. unfold state_of in ST. destruct (get_inst t (se_instances s)) as [i|] eqn:G; [|discriminate].
  assert (RI : in_receiver i = t) by (exact (sinv_get _ _ _ SI G)).
  unfold in_status in H. rewrite ST in H. cbn [p_status status_eqb] in H. rewrite andb_false_r in H.
  unfold inst_send in H. rewrite ST in H. cbn [p_prepare] in H. change (drop_by_value c x00) with (without_nul c) in H.
  destruct (encrypt4 C _ t dr false (without_nul c) [] (ev_send e)) as [[m k']|x|]; cbn [bind] in H;
    try (apply pair3 in H; destruct H as (_ & _ & H); discriminate).
  cbn [p_version] in H. rewrite RI in H.
  destruct (let* content := _ in _) as [l|x|] eqn:PL; apply pair3 in H; destruct H as (_ & _ & H); try discriminate.
  injection H as ->. apply bind_ok in PL. destruct PL as (b & EB & PL). exists m, k'. split; [reflexivity|].
  eapply payloads_transported; eassumption.
Qed.

Lemma encrypt4_settled our their dr : dr_next dr = RECEIVER ->
  exists key mac pn i j pt dh, forall n c rnd m dr', encrypt4 C our their (retime n dr) false c [] rnd = Ok (m, dr') ->
    MData4 m = sealed4 C our their key mac pn i j pt dh [] c.
Proof.
  intros NX. unfold encrypt4. unfold retime. cbn [dr_next dr_sender dr_i dr_pn dr_shared]. rewrite NX. cbn [selector_eqb bind dr_next dr_sender dr_i dr_pn dr_shared].
  destruct (ratchet_keys C (dr_sender dr)) as [[mk mm]|x|]; cbn [bind];
    [|exists [], [], 0, 0, 0, pt_id, None; discriminate|exists [], [], 0, 0, 0, pt_id, None; discriminate].
  exists (extract_encryption_key mk), mm, (dr_pn dr), (dr_i dr - 1), (ra_message_id (dr_sender dr)),
    (ec_public (mx_ecdh (dr_shared dr))),
    (if (dr_i dr - 1) mod 3 =? 0 then Some (dh3_public (mx_dh (dr_shared dr))) else None).
  intros n c rnd m d' H. apply bind_ok in H. destruct H as (u & _ & H).
  apply bind_ok in H. destruct H as (d2 & _ & H). injection H as <- <-. reflexivity.
Qed.
Lemma retime_self dr : retime (dr_created dr) dr = dr. Proof. now destruct dr. Qed.
Lemma retime_retime a b dr : retime a (retime b dr) = retime a dr. Proof. reflexivity. Qed.

Lemma keys_reused4 d h s e1 p1 em m s1 ea c1 sa ps1 h2 s2 p2 e2 s3 out3 r3 eb c2 sb ps2 :
  history C d h s -> em_version em = V4 -> em_message em = MAuthI m -> starts C e1 s p1 em s1 ->
  send C ea s1 (em_sender em) c1 = (sa, [], Ok ps1) ->
  quiet_run C (em_sender em) sa h2 s2 -> carries C s2 p2 em ->
  receive C e2 s2 p2 = (s3, out3, r3) -> send C eb s3 (em_sender em) c2 = (sb, [], Ok ps2) ->
  r3 = Ok (UMSessionStarted (em_sender em)) /\
  exists key mac pn i j pt dh,
    transported d ea (em_sender em) V4 (sealed4 C (de_tag d) (em_sender em) key mac pn i j pt dh [] (without_nul c1)) ps1 /\
    transported d eb (em_sender em) V4 (sealed4 C (de_tag d) (em_sender em) key mac pn i j pt dh [] (without_nul c2)) ps2.
Proof.
  intros H V M S S1 QR CA2 R3 S3.
  assert (K1 : call C (fun _ => ea) s1 (OpSend (em_sender em) c1) = (sa, [], Ok (AnPayloads ps1))) by (unfold call, answering; now rewrite S1).
  set (ev := mkEvent (OpSend (em_sender em) c1) [] (Ok (AnPayloads ps1))) in *.
  assert (RU1 : quiet_run C (em_sender em) s1 [ev] sa).
  { change [ev] with ([] ++ [ev]). econstructor; [constructor|exact I|exact K1|discriminate]. }
  assert (RU' : quiet_run C (em_sender em) s1 ([ev] ++ h2) s2).
  { clear - QR RU1. induction QR as [|h s es o s' out r RU IH Q K NP]; [now rewrite app_nil_r|]. rewrite app_assoc. econstructor; eassumption. }
  destruct (auth_i_replayed d h s e1 p1 em m s1 _ s2 p2 H V M S RU' CA2) as (mat & NX & RV & ST1 & AG).
  destruct (AG e2) as (s3' & R3' & ST3). rewrite R3 in R3'. apply pair3 in R3'. destruct R3' as (<- & _ & ->).
  split; [reflexivity|]. destruct (history_inv C d h s H) as [I0 D0]. destruct S as (CA & out & R).
  assert (X1 : forall e s s' p out, receive C e s p = (s', out, Ok (UMSessionStarted (em_sender em))) -> sinv s -> se_details s = d ->
     sinv s' /\ se_details s' = d).
  { intros e s0 s0' p o J I' D'. assert (J' : call C (fun _ => e) s0 (OpReceive p) = (s0', o, Ok (AnMessage (UMSessionStarted (em_sender em)))))
      by (unfold call, answering; now rewrite J).
    apply sinv_call in J'; [|discriminate|assumption]. destruct J' as [A B]. split; [assumption|congruence]. }
  destruct (X1 _ _ _ _ _ R I0 D0) as [I1 D1]. destruct (run_inv C _ _ _ (quiet_is_run C _ _ _ _ RU') I1) as [I2 D2]. rewrite D1 in D2.
  destruct (X1 _ _ _ _ _ R3 I2 D2) as [I3 D3].
  assert (EN : enabled d).
  { destruct (otr_disabled (de_policy d)) eqn:OD.
    - unfold receive in R. rewrite D0, OD in R. apply pair3 in R. destruct R as (_ & _ & R). discriminate.
    - unfold otr_disabled, enabled, allowed in *. destruct (allow_v3 _), (allow_v4 _); auto. }
  destruct (encrypt4_settled (de_tag d) (em_sender em) (dm_ratchet mat) NX) as (key & mac & pn & i & j & pt & dh & SE).
  exists key, mac, pn, i, j, pt, dh. unfold enc4_new in *. cbn [retimed dm_ratchet] in ST3. split.
  - eapply send4_out in S1; [|assumption|now rewrite D1|exact ST1]. rewrite D1 in S1. destruct S1 as (m1 & dr1 & E1 & T1).
    rewrite <- (retime_self (dm_ratchet mat)) in E1. apply SE in E1. now rewrite <- E1.
  - eapply send4_out in S3; [|assumption|now rewrite D3|exact ST3]. rewrite D3 in S3. destruct S3 as (m1 & dr1 & E1 & T1).
    apply SE in E1. now rewrite <- E1.
Qed.

(** ** Auth-R *)

Lemma started_enabled e s p s' out t : receive C e s p = (s', out, Ok (UMSessionStarted t)) -> enabled (se_details s).
Proof.
  intros R. destruct (otr_disabled (de_policy (se_details s))) eqn:OD.
  - unfold receive in R. rewrite OD in R. apply pair3 in R. destruct R as (_ & _ & R). discriminate.
  - unfold otr_disabled, enabled, allowed in *. destruct (allow_v3 _), (allow_v4 _); auto.
Qed.
Lemma received_inv e s p s' out r : receive C e s p = (s', out, r) -> r <> Panic -> sinv s -> sinv s' /\ se_details s' = se_details s.
Proof.
  intros R NP I. assert (K : call C (fun _ => e) s (OpReceive p) = (s', out, res_map AnMessage r)) by (unfold call, answering; now rewrite R).
  apply sinv_call in K; [exact K| |assumption]. destruct r; cbn [res_map]; congruence.
Qed.

Lemma authr_in e s em m s' out w : sinv s -> em_version em = V4 -> em_message em = MAuthR m -> dake0 s = DakeAwaitingAuthR w ->
  receive_encoded C e s em = (s', out, Ok (UMSessionStarted (em_sender em))) ->
  let t := em_sender em in let d := se_details s in
  t <> 0 /\ allowed d V4 /\ verify_header d em = Ok tt /\
  exists st mat r, dake_handle_auth_r C (ev_dake_host e) (ev_ring e) (sr_ecdh (ev_send e)) (sr_dh (ev_send e)) (ev_now e)
      (DakeAwaitingAuthR w) m (de_account d) (de_address d) = (st, Ok (mat, r)) /\
    inject d e (instance_new t) V4 t (MAuthI r) = Ok out /\ state_of s' t = enc4_new (de_tag d) t mat.
Proof.
  intros SI V M W H. cbn zeta. unfold dake0, at_, entry in W. destruct (si_zero _ SI) as (z & Z & _). rewrite Z in W.
  assert (RZ : in_receiver z = 0) by (exact (sinv_get _ _ _ SI Z)).
  assert (X := H). apply encoded_split in X; [|discriminate].
  destruct X as [(_ & _ & _ & X)|[(_ & _ & _ & x & X & _)|(VH & NZ & AL & _)]]; try discriminate.
  rewrite V in AL. split; [assumption|]. split; [assumption|]. split; [assumption|].
  assert (RI : in_receiver (at_ s (em_sender em)) = em_sender em) by (apply sinv_entry; assumption).
  unfold receive_encoded in H. assert (NZ' := NZ). apply N.eqb_neq in NZ'. rewrite NZ', VH, V in H.
  rewrite allowed_not_refused in H by (try assumption; now right). rewrite M, Z in H.
  unfold transfer_dake_context in H. rewrite RZ, W in H. cbn [N.eqb dake_transfer] in H.
  apply on_entry_inv in H; [|discriminate]. destruct H as (i' & H & ->). fold (at_ s (em_sender em)) in H.
  unfold adopt_dake_context in H. rewrite RI, NZ' in H. unfold inst_handle in H. rewrite V, M in H. cbn [set_dake in_dake in_receiver] in H.
  destruct (dake_handle_auth_r _ _ _ _ _ _ _ _ _ _) as [st [[mat r]|x|]];
    try (apply pair3 in H; destruct H as (_ & _ & H); discriminate).
  exists st, mat, r. split; [reflexivity|].
  assert (J : inject (se_details s) e (set_dake (at_ s (em_sender em)) (DakeAwaitingAuthR w)) V4 (em_sender em) (MAuthI r)
              = inject (se_details s) e (instance_new (em_sender em)) V4 (em_sender em) (MAuthI r))
    by (unfold inject; cbn [set_dake in_receiver instance_new]; now rewrite RI).
  unfold set_dake in H at 1. unfold set_dake in J. rewrite J in H.
  destruct (inject _ _ (instance_new _) _ _ _) as [o|x|]; try (apply pair3 in H; destruct H as (_ & _ & H); discriminate).
  unfold secure, p_secure in H. rewrite RI in H. cbn [in_state in_ake in_dake in_receiver in_assembler set_dake] in H.
  rewrite state_put_same.
  destruct (in_state (at_ s (em_sender em))); cbn [bind enc4_new p_status status_eqb] in H;
    apply pair3 in H; destruct H as (<- & <- & _); (split; [reflexivity|reflexivity]).
Qed.
Lemma authr_out e s em m out w st mat r : sinv s -> em_version em = V4 -> em_message em = MAuthR m -> dake0 s = DakeAwaitingAuthR w ->
  em_sender em <> 0 -> allowed (se_details s) V4 -> verify_header (se_details s) em = Ok tt ->
  let t := em_sender em in let d := se_details s in
  dake_handle_auth_r C (ev_dake_host e) (ev_ring e) (sr_ecdh (ev_send e)) (sr_dh (ev_send e)) (ev_now e)
      (DakeAwaitingAuthR w) m (de_account d) (de_address d) = (st, Ok (mat, r)) ->
  inject d e (instance_new t) V4 t (MAuthI r) = Ok out ->
  exists s', receive_encoded C e s em = (s', out, Ok (UMSessionStarted t)) /\ state_of s' t = enc4_new (de_tag d) t mat.
Proof.
  intros SI V M W NZ AL VH. cbn zeta. intros HD J. unfold dake0, at_, entry in W. destruct (si_zero _ SI) as (z & Z & _). rewrite Z in W.
  assert (RZ : in_receiver z = 0) by (exact (sinv_get _ _ _ SI Z)).
  assert (RI : in_receiver (at_ s (em_sender em)) = em_sender em) by (apply sinv_entry; assumption).
  unfold receive_encoded. apply N.eqb_neq in NZ. rewrite NZ, VH, V.
  rewrite allowed_not_refused by (try assumption; now right). rewrite M, Z.
  unfold transfer_dake_context. rewrite RZ, W. cbn [N.eqb dake_transfer]. unfold on_entry. fold (at_ s (em_sender em)).
  unfold adopt_dake_context. rewrite RI, NZ. unfold inst_handle. rewrite V, M. cbn [set_dake in_dake in_receiver]. rewrite HD.
  assert (J' : inject (se_details s) e (set_dake (at_ s (em_sender em)) (DakeAwaitingAuthR w)) V4 (em_sender em) (MAuthI r) = Ok out)
    by (rewrite <- J; unfold inject; cbn [set_dake in_receiver instance_new]; now rewrite RI).
  unfold set_dake in J'. unfold set_dake at 1. rewrite J'. unfold secure, p_secure. rewrite RI.
  cbn [in_state in_ake in_dake in_receiver in_assembler set_dake].
  destruct (in_state (at_ s (em_sender em))); cbn [bind enc4_new p_status status_eqb];
    (eexists; split; [reflexivity|rewrite state_put_same; reflexivity]).
Qed.

Lemma auth_r_replayed d h s q e1 p1 em m s1 out h2 s2 p2 : history C d h s -> In q h -> answered_query C d V4 q ->
  em_version em = V4 -> em_message em = MAuthR m -> carries C s p1 em ->
  receive C e1 s p1 = (s1, out, Ok (UMSessionStarted (em_sender em))) ->
  run C s1 h2 s2 -> carries C s2 p2 em ->
  exists s3, receive C e1 s2 p2 = (s3, out, Ok (UMSessionStarted (em_sender em))) /\
    exists mat, state_of s1 (em_sender em) = enc4_new (de_tag d) (em_sender em) mat /\
      state_of s3 (em_sender em) = enc4_new (de_tag d) (em_sender em) mat.
Proof.
  intros H IQ AQ V M CA R RU CA2. destruct (history_inv C d h s H) as [I D].
  pose proof (started_enabled _ _ _ _ _ _ R) as EN. rewrite D in EN.
  destruct (waiting_answered C d h s q V4 H EN IQ AQ) as (w & W).
  destruct (received_inv _ _ _ _ _ _ R ltac:(discriminate) I) as [I1 D1]. rewrite D in D1.
  assert (W1 : dake0 s1 = DakeAwaitingAuthR w).
  { rewrite <- W. apply (waiting4_run C s [mkEvent (OpReceive p1) out (Ok (AnMessage (UMSessionStarted (em_sender em))))]); [|assumption|eexists; exact W].
    change [?x] with ([] ++ [x]). apply run_call with (s := s) (es := fun _ => e1); [constructor| |discriminate].
    unfold call, answering. now rewrite R. }
  assert (W2 : dake0 s2 = DakeAwaitingAuthR w).
  { rewrite <- W1. apply (waiting4_run C s1 h2); [assumption|assumption|eexists; exact W1]. }
  destruct (run_inv C _ _ _ RU I1) as [I2 D2]. rewrite D1 in D2.
  apply carried_in with (em := em) in R; [|now rewrite D|assumption|discriminate].
  assert (WS : dake0 (stored s p1) = DakeAwaitingAuthR w).
  { unfold dake0 in *. destruct (kx_stored s p1 0) as [_ ->]. exact W. }
  apply authr_in with (m := m) (w := w) in R; [|now apply sinv_stored|assumption|assumption|assumption].
  cbn zeta in R. rewrite stored_details, D in R. destruct R as (NZ & AL & VH & st & mat & r & HD & J & ST).
  assert (WS2 : dake0 (stored s2 p2) = DakeAwaitingAuthR w).
  { unfold dake0 in *. destruct (kx_stored s2 p2 0) as [_ ->]. exact W2. }
  destruct (authr_out e1 (stored s2 p2) em m out w st mat r) as (s3 & R3 & ST3);
    try (rewrite ?stored_details, ?D2; assumption); [now apply sinv_stored|].
  rewrite stored_details, D2 in ST3. exists s3. split; [|exists mat; auto].
  eapply carried_out; [now rewrite D2|exact CA2|exact R3|discriminate].
Qed.

(** ** D-H Key and Signature *)

Lemma dhkey_eval e s em m s' out r our x : sinv s -> em_version em = V3 -> em_message em = MDHKey m ->
  ake0 s = AkeAwaitingDHKey our x -> em_sender em <> 0 -> allowed (se_details s) V3 -> verify_header (se_details s) em = Ok tt ->
  receive_encoded C e s em = (s', out, r) -> r <> Panic ->
  (dh_verify_public_key C (dk_gy m) = false /\ r = Err AuthenticationError) \/
  (dh_verify_public_key C (dk_gy m) = true /\ r = Ok UMNone /\
   exists reply, in_ake (at_ s' (em_sender em)) = AkeAwaitingSig our (dk_gy m) (dh_shared C our (dk_gy m)) reply).
Proof.
  intros SI V M W NZ AL VH H NP. unfold ake0, at_, entry in W. destruct (si_zero _ SI) as (z & Z & _). rewrite Z in W.
  assert (RZ : in_receiver z = 0) by (exact (sinv_get _ _ _ SI Z)).
  assert (RI : in_receiver (at_ s (em_sender em)) = em_sender em) by (apply sinv_entry; assumption).
  unfold receive_encoded in H. apply N.eqb_neq in NZ. rewrite NZ, VH, V in H.
  rewrite allowed_not_refused in H by (try assumption; now left). rewrite M, Z in H.
  unfold transfer_ake_context in H. rewrite RZ, W in H. cbn [N.eqb ake_transfer] in H.
  apply on_entry_inv in H; [|assumption]. destruct H as (i' & H & ->). fold (at_ s (em_sender em)) in H.
  unfold adopt_ake_context in H. rewrite RI, NZ in H. unfold inst_handle in H. rewrite V, M in H.
  rewrite at_put_same. cbn [set_ake set_assembler in_ake in_receiver ake_handle_dhkey] in H.
  destruct (dh_verify_public_key C (dk_gy m)); cbn [negb] in H.
  - right. split; [reflexivity|]. destruct (ev_dsa e) as [k|]; [|fin3 H; congruence].
    destruct (ake_prove _ _ _ _ _ _) as [enc mac]. apply injecting_inv in H.
    destruct H as [(_ & -> & ->)|[(y & E & _)|(_ & ->)]]; [|now apply inject_no_err in E|congruence].
    split; [reflexivity|]. eexists. cbn [set_ake in_ake]. reflexivity.
  - left. fin3 H. auto.
Qed.
Lemma signature_eval e s em m s' out r our gy sh reply : sinv s -> em_version em = V3 -> em_message em = MSignature m ->
  in_ake (at_ s (em_sender em)) = AkeAwaitingSig our gy sh reply ->
  em_sender em <> 0 -> allowed (se_details s) V3 -> verify_header (se_details s) em = Ok tt ->
  receive_encoded C e s em = (s', out, r) -> r <> Panic ->
  (exists x, signature_result C our gy sh m = Err x /\ r = Err AuthenticationError) \/
  (exists mat k, signature_result C our gy sh m = Ok mat /\ r = Ok (UMSessionStarted (em_sender em)) /\
   km_new C 1 (am_our_dh mat) 1 (am_their_dh mat) (ev_km0 e) (ev_km1 e) = Ok k /\
   state_of s' (em_sender em) = PEnc3 (de_tag (se_details s)) (em_sender em) k
     (smp_new (am_ssid mat) (otr3_fingerprint C (am_their_dsa mat)))).
Proof.
  intros SI V M W NZ AL VH H NP.
  assert (RI : in_receiver (at_ s (em_sender em)) = em_sender em) by (apply sinv_entry; assumption).
  unfold receive_encoded in H. apply N.eqb_neq in NZ. rewrite NZ, VH, V in H.
  rewrite allowed_not_refused in H by (try assumption; now left). rewrite M in H.
  apply on_entry_inv in H; [|assumption]. destruct H as (i' & H & ->). fold (at_ s (em_sender em)) in H.
  unfold inst_handle in H. rewrite V, M in H. rewrite state_put_same.
  cbn [set_assembler in_ake in_receiver] in H. rewrite W in H. cbn [ake_handle_signature] in H.
  destruct (signature_result C our gy sh m) as [mat|x|]; [|left; exists x; fin3 H; auto|fin3 H; congruence].
  right. destruct (secure C _ e _ _ _) as [i1|x|] eqn:S.
  - apply secure3 in S. destruct S as (k & K & ->). exists mat, k. rewrite RI in H. fin3 H. auto.
  - exfalso. unfold secure, p_secure in S. cbn [set_ake set_assembler in_state] in S.
    assert (E : enc3_new C (de_tag (se_details s)) (em_sender em) mat (ev_km0 e) (ev_km1 e) <> Err x).
    { unfold enc3_new, km_new. destruct (_ || _); cbn [bind]; [discriminate|]. unfold kr_new, pr_new, dh_generate.
      repeat (destruct (_ =? _); cbn [bind]; try discriminate). all: destruct (negb _); cbn [bind]; try discriminate.
      all: repeat (destruct (_ =? _); cbn [bind]; try discriminate). }
    destruct (in_state (at_ s (em_sender em))); cbn [bind] in S; try discriminate;
      (destruct (enc3_new C _ _ _ _ _) as [st|y|]; cbn [bind] in S; [destruct (status_eqb _ _); discriminate|congruence|discriminate]).
  - fin3 H. congruence.
Qed.

Lemma carried_zero e s p em s' out r : enabled (se_details s) -> carries C s p em -> em_sender em <> 0 ->
  receive C e s p = (s', out, r) -> r <> Panic -> ake0 s' = ake0 s.
Proof.
  intros EN CA NZ R NP. eapply carried_in in R; [|assumption|exact CA|assumption].
  destruct (encoded_kx C _ _ _ _ _ _ R NP 0 (or_introl (not_eq_sym NZ))) as [K _].
  destruct (kx_stored s p 0) as [K0 _]. unfold ake0. congruence.
Qed.

Definition session3 (d : details) (t : N) (mat : ake_material) (s : session) : Prop :=
  exists k r0 r1, km_new C 1 (am_our_dh mat) 1 (am_their_dh mat) r0 r1 = Ok k /\
    state_of s t = PEnc3 (de_tag d) t k (smp_new (am_ssid mat) (otr3_fingerprint C (am_their_dsa mat))).

Lemma last_messages_eval d t key km sg sm s s' r1 r2 our x : sinv s -> se_details s = d ->
  em_version key = V3 -> em_message key = MDHKey km -> em_sender key = t ->
  em_version sg = V3 -> em_message sg = MSignature sm -> em_sender sg = t ->
  ake0 s = AkeAwaitingDHKey our x -> t <> 0 -> allowed d V3 -> verify_header d key = Ok tt -> verify_header d sg = Ok tt ->
  last_messages3 C t key sg s s' r1 r2 ->
  sinv s' /\ se_details s' = d /\ ake0 s' = ake0 s /\
  ((exists mat, signature_result C our (dk_gy km) (dh_shared C our (dk_gy km)) sm = Ok mat) -> r1 = Ok UMNone ->
   r2 = Ok (UMSessionStarted t)) /\
  (r1 = Ok UMNone <-> dh_verify_public_key C (dk_gy km) = true) /\
  (r1 = Ok UMNone -> r2 = Ok (UMSessionStarted t) ->
   exists mat, signature_result C our (dk_gy km) (dh_shared C our (dk_gy km)) sm = Ok mat /\ session3 d t mat s').
Proof.
  intros SI D KV KM KS SV SM SS W NZ AL VK VS (e1 & p1 & s1 & out1 & h & s2 & e2 & p2 & out2 & CA1 & R1 & NP1 & QR & NS & CA2 & R2 & NP2).
  assert (EN : enabled d) by now left. rewrite D in NS.
  destruct (received_inv _ _ _ _ _ _ R1 NP1 SI) as [I1 D1]. rewrite D in D1.
  pose proof (quiet_is_run C _ _ _ _ QR) as RU. destruct (run_inv C _ _ _ RU I1) as [I2 D2]. rewrite D1 in D2.
  destruct (received_inv _ _ _ _ _ _ R2 NP2 I2) as [I3 D3]. rewrite D2 in D3.
  split; [assumption|]. split; [assumption|].
  assert (Z1 : ake0 s1 = ake0 s) by (eapply carried_zero; [rewrite D; exact EN|exact CA1|congruence|exact R1|exact NP1]).
  assert (Z2 : ake0 s2 = ake0 s1) by (eapply ake0_run; [exact RU|exact I1|now rewrite D1]).
  assert (Z3 : ake0 s' = ake0 s2) by (eapply carried_zero; [rewrite D2; exact EN|exact CA2|congruence|exact R2|exact NP2]).
  split; [congruence|].
  eapply carried_in in R1; [|rewrite D; exact EN|exact CA1|assumption].
  assert (WS : ake0 (stored s p1) = AkeAwaitingDHKey our x).
  { unfold ake0 in *. destruct (kx_stored s p1 0) as [-> _]. exact W. }
  apply dhkey_eval with (m := km) (our := our) (x := x) in R1;
    try (rewrite ?stored_details, ?D; assumption); try (now apply sinv_stored); try congruence.
  destruct R1 as [(BAD & ->)|(GOOD & -> & reply & K1)].
  { split; [discriminate|]. split; [|discriminate]. rewrite BAD. split; discriminate. }
  rewrite KS in K1. destruct (quiet_kx C _ _ _ _ QR I1 NZ) as [K2 _].
  eapply carried_in in R2; [|rewrite D2; exact EN|exact CA2|assumption].
  destruct (kx_stored s2 p2 t) as [K3 _].
  apply signature_eval with (m := sm) (our := our) (gy := dk_gy km) (sh := dh_shared C our (dk_gy km)) (reply := reply) in R2;
    try (rewrite ?stored_details, ?D2; assumption); try (now apply sinv_stored); try (rewrite SS; congruence); try congruence.
  rewrite SS, stored_details, D2 in R2. rewrite GOOD.
  destruct R2 as [(y & B & ->)|(mat & k & A & -> & KM' & ST)].
  - split; [intros (mat & A); congruence|]. split; [tauto|]. discriminate.
  - split; [reflexivity|]. split; [tauto|]. intros _ _. exists mat. split; [assumption|]. unfold session3. eauto 10.
Qed.

Lemma exchange_replayed3 d h s q t key sg s' h2 s2 s3 r1 r2 : history C d h s -> In q h -> answered_query C d V3 q ->
  is_dh_key t key -> is_signature t sg ->
  last_messages3 C t key sg s s' (Ok UMNone) (Ok (UMSessionStarted t)) ->
  run C s' h2 s2 -> (sinv s' -> se_details s' = d -> ake0 s2 = ake0 s') -> last_messages3 C t key sg s2 s3 r1 r2 ->
  sinv s' /\ sinv s3 /\ se_details s' = d /\ se_details s3 = d /\ enabled d /\
  r1 = Ok UMNone /\ r2 = Ok (UMSessionStarted t) /\ exists mat, session3 d t mat s' /\ session3 d t mat s3.
Proof.
  intros H IQ AQ (KV & KS & km & KM) (SV & SS & sm & SM) L RU NS L2. destruct (history_inv C d h s H) as [I D].
  assert (F : enabled d /\ t <> 0 /\ allowed d V3 /\ verify_header d key = Ok tt /\ verify_header d sg = Ok tt).
  { destruct L as (e1 & p1 & s1 & out1 & h1 & s1' & e2 & p2 & out2 & CA1 & R1 & NP1 & QR & _ & CA2 & R2 & NP2).
    destruct (received_inv _ _ _ _ _ _ R1 NP1 I) as [I1 D1]. destruct (run_inv C _ _ _ (quiet_is_run C _ _ _ _ QR) I1) as [I2 D2].
    assert (DD : se_details s1' = d) by congruence. pose proof (started_enabled _ _ _ _ _ _ R2) as EN. rewrite DD in EN.
    split; [assumption|].
    eapply carried_in in R2; [|rewrite DD; exact EN|exact CA2|assumption]. apply encoded_split in R2; [|discriminate].
    rewrite stored_details, DD, SS, SV in R2.
    destruct R2 as [(_ & _ & _ & X)|[(_ & _ & _ & y & X & _)|(VS & NZ & AL & _)]]; try discriminate.
    split; [assumption|]. split; [assumption|]. split; [|assumption].
    eapply carried_in in R1; [|rewrite D; exact EN|exact CA1|assumption]. apply encoded_split in R1; [|discriminate].
    rewrite stored_details, D, KS, KV in R1.
    destruct R1 as [(_ & _ & [X|X] & _)|[(_ & _ & _ & y & X & _)|(VK & _)]]; [congruence|contradiction|discriminate|assumption]. }
  destruct F as (EN & NZ & AL & VK & VS).
  destruct (waiting_answered C d h s q V3 H EN IQ AQ) as (our & x & W).
  destruct (last_messages_eval d t key km sg sm s s' _ _ our x I D KV KM KS SV SM SS W NZ AL VK VS L) as (I1 & D1 & W1 & _ & G & M1).
  destruct (M1 eq_refl eq_refl) as (mat & SR & S1).
  assert (W2 : ake0 s2 = AkeAwaitingDHKey our x).
  { rewrite <- W, <- W1. auto. }
  destruct (run_inv C _ _ _ RU I1) as [I2 D2]. rewrite D1 in D2.
  destruct (last_messages_eval d t key km sg sm s2 s3 r1 r2 our x I2 D2 KV KM KS SV SM SS W2 NZ AL VK VS L2) as (I3 & D3 & _ & A & B & M2).
  assert (E1 : r1 = Ok UMNone) by (apply B, G; reflexivity).
  assert (E2 : r2 = Ok (UMSessionStarted t)) by (apply A; eauto).
  destruct (M2 E1 E2) as (mat' & SR' & S3). assert (mat' = mat) as -> by congruence.
  repeat (split; [assumption|]). eauto.
Qed.

Lemma encrypt3_first our their mat :
  exists key mac ctr, forall r0 r1 k c m k', km_new C 1 (am_our_dh mat) 1 (am_their_dh mat) r0 r1 = Ok k ->
    encrypt3 C our their k false c = Ok (m, k') ->
    exists next, MData m = sealed3 C our their key mac 1 1 next ctr [] c.
Proof.
  destruct (data_derive C (dh_public (am_our_dh mat)) (am_their_dh mat) (write_mpi (dh_shared C (am_our_dh mat) (am_their_dh mat))))
    as [sec|x|] eqn:DD.
  - exists (ds_send sec), (sender_mac_key C sec), [x00; x00; x00; x00; x00; x00; x00; x01].
    intros r0 r1 k c m k' K H. unfold km_new, kr_new, pr_new in K. cbn [N.eqb orb] in K.
    destruct (negb _); cbn [bind] in K; [discriminate|].
    destruct (dh_generate C r0) as [k0|y|]; cbn [bind] in K; try discriminate.
    destruct (dh_generate C r1) as [k1|y|]; cbn [bind] in K; try discriminate.
    destruct (am_their_dh mat =? 0); cbn [bind] in K; [discriminate|]. injection K as <-.
    unfold encrypt3, km_take_counter in H. cbn [km_our_ctr] in H.
    change (ctr_take COUNTER_INITIAL_VALUE) with (Ok [x00; x00; x00; x00; x00; x00; x00; x01]) in H. cbn [bind km_ours km_theirs] in H.
    unfold pr_current, kr_current, kr_next, km_shared_secret, pr_set, kr_set, pr_slot, kr_slot in H.
    cbn [N.even kr_ack kr_odd kr_even pr_id pr_odd pr_even u32_succ N.eqb bind km_ours km_theirs fst snd] in H.
    change (u32_succ 1) with (Ok 2) in H. cbn [bind] in H.
    unfold pr_current, kr_current, pr_slot, kr_slot in H. cbn [N.even kr_ack kr_odd kr_even pr_id pr_odd pr_even snd] in H. rewrite DD in H. cbn [bind] in H.
    destruct (all_zero _); [discriminate|]. unfold km_get_reveal_macs in H. cbn [km_old_macs length] in H. change (negb (Nat.eqb (Nat.modulo 0 20) 0)) with false in H.
    cbn [bind length Nat.eqb negb andb] in H. destruct (all_zero _); [discriminate|]. injection H as <- <-. eexists. reflexivity.
  - exists [], [], []. intros r0 r1 k c m k' K H. exfalso. unfold km_new, kr_new, pr_new in K. cbn [N.eqb orb] in K.
    destruct (negb _); cbn [bind] in K; [discriminate|].
    destruct (dh_generate C r0) as [k0|y|]; cbn [bind] in K; try discriminate.
    destruct (dh_generate C r1) as [k1|y|]; cbn [bind] in K; try discriminate.
    destruct (am_their_dh mat =? 0); cbn [bind] in K; [discriminate|]. injection K as <-.
    unfold encrypt3, km_take_counter in H. cbn [km_our_ctr] in H.
    change (ctr_take COUNTER_INITIAL_VALUE) with (Ok [x00; x00; x00; x00; x00; x00; x00; x01]) in H. cbn [bind km_ours km_theirs] in H.
    unfold pr_current, kr_current, kr_next, km_shared_secret, pr_set, kr_set, pr_slot, kr_slot in H.
    cbn [N.even kr_ack kr_odd kr_even pr_id pr_odd pr_even u32_succ N.eqb bind km_ours km_theirs fst snd] in H.
    change (u32_succ 1) with (Ok 2) in H. cbn [bind] in H.
    unfold pr_current, kr_current, pr_slot, kr_slot in H. cbn [N.even kr_ack kr_odd kr_even pr_id pr_odd pr_even snd] in H. rewrite DD in H. discriminate.
  - exists [], [], []. intros r0 r1 k c m k' K H. exfalso. unfold km_new, kr_new, pr_new in K. cbn [N.eqb orb] in K.
    destruct (negb _); cbn [bind] in K; [discriminate|].
    destruct (dh_generate C r0) as [k0|y|]; cbn [bind] in K; try discriminate.
    destruct (dh_generate C r1) as [k1|y|]; cbn [bind] in K; try discriminate.
    destruct (am_their_dh mat =? 0); cbn [bind] in K; [discriminate|]. injection K as <-.
    unfold encrypt3, km_take_counter in H. cbn [km_our_ctr] in H.
    change (ctr_take COUNTER_INITIAL_VALUE) with (Ok [x00; x00; x00; x00; x00; x00; x00; x01]) in H. cbn [bind km_ours km_theirs] in H.
    unfold pr_current, kr_current, kr_next, km_shared_secret, pr_set, kr_set, pr_slot, kr_slot in H.
    cbn [N.even kr_ack kr_odd kr_even pr_id pr_odd pr_even u32_succ N.eqb bind km_ours km_theirs fst snd] in H.
    change (u32_succ 1) with (Ok 2) in H. cbn [bind] in H.
    unfold pr_current, kr_current, pr_slot, kr_slot in H. cbn [N.even kr_ack kr_odd kr_even pr_id pr_odd pr_even snd] in H. rewrite DD in H. discriminate.
Qed.

Lemma keys_reused3 d h s q t kem sem s1 ea c1 sa ps1 h2 s2 s3 r1 r2 eb c2 sb ps2 :
  history C d h s -> In q h -> answered_query C d V3 q -> is_dh_key t kem -> is_signature t sem ->
  last_messages3 C t kem sem s s1 (Ok UMNone) (Ok (UMSessionStarted t)) ->
  send C ea s1 t c1 = (sa, [], Ok ps1) ->
  run C sa h2 s2 -> no_new_start3 d h2 -> last_messages3 C t kem sem s2 s3 r1 r2 ->
  send C eb s3 t c2 = (sb, [], Ok ps2) ->
  r2 = Ok (UMSessionStarted t) /\
  exists key mac ctr next1 next2,
    transported d ea t V3 (sealed3 C (de_tag d) t key mac 1 1 next1 ctr [] (without_nul c1)) ps1 /\
    transported d eb t V3 (sealed3 C (de_tag d) t key mac 1 1 next2 ctr [] (without_nul c2)) ps2.
Proof.
  intros H IQ AQ K S L S1 RU NS L2 S3.
  assert (RU' : run C s1 ([mkEvent (OpSend t c1) [] (Ok (AnPayloads ps1))] ++ h2) s2).
  { assert (RU1 : run C s1 [mkEvent (OpSend t c1) [] (Ok (AnPayloads ps1))] sa).
    { change [?x] with ([] ++ [x]). apply run_call with (s := s1) (es := fun _ => ea); [constructor| |discriminate].
      unfold call, answering. now rewrite S1. }
    clear - RU RU1. induction RU as [|h s es o s' out r RU IH K NP]; [now rewrite app_nil_r|]. rewrite app_assoc. econstructor; eassumption. }
  assert (NS' : sinv s1 -> se_details s1 = d -> ake0 s2 = ake0 s1).
  { intros I1 D1. assert (K1 : call C (fun _ => ea) s1 (OpSend t c1) = (sa, [], Ok (AnPayloads ps1))) by (unfold call, answering; now rewrite S1).
    destruct (other_kx C _ _ _ _ _ _ 0 K1 ltac:(discriminate) I1 I) as [K2 _].
    apply sinv_call in K1; [|discriminate|assumption]. destruct K1 as [IA DA].
    transitivity (ake0 sa); [|exact K2]. eapply ake0_run; [exact RU|exact IA|]. now rewrite DA, D1. }
  destruct (exchange_replayed3 _ _ _ _ _ _ _ _ _ _ _ _ _ H IQ AQ K S L RU' NS' L2) as (I1 & I3 & D1 & D3 & EN & -> & -> & mat & (k1 & a1 & b1 & N1 & ST1) & (k3 & a3 & b3 & N3 & ST3)).
  split; [reflexivity|].
  destruct (encrypt3_first (de_tag d) t mat) as (key & mac & ctr & F).
  eapply send3_out in S1; [|assumption|now rewrite D1|exact ST1]. rewrite D1 in S1. destruct S1 as (m1 & k1' & E1 & T1).
  eapply send3_out in S3; [|assumption|now rewrite D3|exact ST3]. rewrite D3 in S3. destruct S3 as (m3 & k3' & E3 & T3).
  destruct (F _ _ _ _ _ _ N1 E1) as (n1 & X1). destruct (F _ _ _ _ _ _ N3 E3) as (n3 & X3).
  exists key, mac, ctr, n1, n3. rewrite <- X1, <- X3. auto.
Qed.

(** ** C58: the statements *)

Lemma ssid_enc4 s t our their dr smp : state_of s t = PEnc4 our their dr smp -> ses_ssid s t = Ok (s4_ssid smp).
Proof.
  unfold state_of, ses_ssid. destruct (get_inst t (se_instances s)) as [i|]; [|discriminate]. unfold inst_ssid. now intros ->.
Qed.
Lemma ssid_enc3 s t our their k smp : state_of s t = PEnc3 our their k smp -> ses_ssid s t = Ok (sm_ssid smp).
Proof.
  unfold state_of, ses_ssid. destruct (get_inst t (se_instances s)) as [i|]; [|discriminate]. unfold inst_ssid. now intros ->.
Qed.

Lemma restarts_auth_i d h s e1 p1 em m s1 h2 s2 p2 : history C d h s -> em_version em = V4 -> em_message em = MAuthI m ->
  starts C e1 s p1 em s1 -> quiet_run C (em_sender em) s1 h2 s2 -> carries C s2 p2 em ->
  forall e2, exists s3, receive C e2 s2 p2 = (s3, [], Ok (UMSessionStarted (em_sender em))) /\
    ses_ssid s3 (em_sender em) = ses_ssid s1 (em_sender em).
Proof.
  intros H V M S Q CA e2. destruct (auth_i_replayed _ _ _ _ _ _ _ _ _ _ _ H V M S Q CA) as (mat & _ & _ & ST & AG).
  destruct (AG e2) as (s3 & R & ST3). exists s3. split; [exact R|]. unfold enc4_new in *.
  rewrite (ssid_enc4 _ _ _ _ _ _ ST), (ssid_enc4 _ _ _ _ _ _ ST3). reflexivity.
Qed.
Lemma restarts_auth_r d h s q e1 p1 em m s1 out h2 s2 p2 : history C d h s -> In q h -> answered_query C d V4 q ->
  em_version em = V4 -> em_message em = MAuthR m -> carries C s p1 em ->
  receive C e1 s p1 = (s1, out, Ok (UMSessionStarted (em_sender em))) ->
  run C s1 h2 s2 -> carries C s2 p2 em ->
  exists s3, receive C e1 s2 p2 = (s3, out, Ok (UMSessionStarted (em_sender em))) /\
    ses_ssid s3 (em_sender em) = ses_ssid s1 (em_sender em).
Proof.
  intros H IQ AQ V M CA R RU CA2.
  destruct (auth_r_replayed _ _ _ _ _ _ _ _ _ _ _ _ _ H IQ AQ V M CA R RU CA2) as (s3 & R3 & mat & ST & ST3).
  exists s3. split; [exact R3|]. unfold enc4_new in *.
  rewrite (ssid_enc4 _ _ _ _ _ _ ST), (ssid_enc4 _ _ _ _ _ _ ST3). reflexivity.
Qed.
Lemma restarts_v3 d h s q t key sg s' h2 s2 s3 r1 r2 : history C d h s -> In q h -> answered_query C d V3 q ->
  is_dh_key t key -> is_signature t sg ->
  last_messages3 C t key sg s s' (Ok UMNone) (Ok (UMSessionStarted t)) ->
  run C s' h2 s2 -> no_new_start3 d h2 -> last_messages3 C t key sg s2 s3 r1 r2 ->
  r1 = Ok UMNone /\ r2 = Ok (UMSessionStarted t) /\ ses_ssid s3 t = ses_ssid s' t.
Proof.
  intros H IQ AQ K S L RU NS L2.
  destruct (exchange_replayed3 d h s q t key sg s' h2 s2 s3 r1 r2 H IQ AQ K S L RU) as
    (_ & _ & _ & _ & _ & -> & -> & mat & (k & a & b & _ & ST) & (k' & a' & b' & _ & ST')); [|assumption|].
  - intros I1 D1. eapply ake0_run; [exact RU|exact I1|now rewrite D1].
  - rewrite (ssid_enc3 _ _ _ _ _ _ ST), (ssid_enc3 _ _ _ _ _ _ ST'). auto.
Qed.

(** ** C58: a finished OTRv3 exchange *)

Definition no_start (r : res user_message) : Prop := forall u, r <> Ok (UMSessionStarted u).
Lemma error_no_start i b x i' out r : data_error i b x = (i', out, r) -> no_start r.
Proof.
  unfold data_error. intros H. destruct x; try (apply pair3 in H; destruct H as (_ & _ & <-); discriminate).
  destruct (serialize_message _); apply pair3 in H; destruct H as (_ & _ & <-); try discriminate. destruct b; discriminate.
Qed.
Lemma finish_no_start d e i0 i sd reply report i' out r : no_start report -> smp_finish C d e i0 i sd reply report = (i', out, r) -> no_start r.
Proof.
  intros NS H. unfold smp_finish in H. destruct reply as [[t|]|x|].
  - destruct (prepare_tlv _ _ _ _) as [[s m]|x|]; [|apply pair3 in H; destruct H as (_ & _ & <-); discriminate..].
    destruct (inject _ _ _ _ _ _) as [o|x|]; [destruct report|..]; apply pair3 in H; destruct H as (_ & _ & <-); try discriminate; assumption.
  - destruct report; apply pair3 in H; destruct H as (_ & _ & <-); try discriminate; assumption.
  - apply pair3 in H; destruct H as (_ & _ & <-); discriminate.
  - apply pair3 in H; destruct H as (_ & _ & <-); discriminate.
Qed.
Lemma data3_no_start d e i sd rc m i' out r : inst_data3 C d e i sd rc m = (i', out, r) -> no_start r.
Proof.
  unfold inst_data3. destruct (p_handle3 C _ _ _ _) as [s x]. intros H. destruct x as [[content tlvs|content]|x|].
  - destruct (existsb is_smp3_tlv tlvs); [|apply pair3 in H; destruct H as (_ & _ & <-); discriminate].
    destruct (single_smp is_smp3_tlv tlvs) as [t|z|]; [|apply pair3 in H; destruct H as (_ & _ & <-); discriminate..].
    destruct s as [|our their k smp|our their k smp|]; try (apply pair3 in H; destruct H as (_ & _ & <-); discriminate).
    destruct (smp_handle _ _ _ _ _) as [smp' reply]. apply finish_no_start in H; [exact H|].
    intros u. destruct (sm_status smp'); discriminate.
  - apply pair3 in H; destruct H as (_ & _ & <-); discriminate.
  - eapply error_no_start. exact H.
  - apply pair3 in H; destruct H as (_ & _ & <-); discriminate.
Qed.

Lemma injecting_no_start i i' x i'' out r : injecting i i' x UMNone = (i'', out, r) -> no_start r.
Proof. unfold injecting. destruct x; intros H; apply pair3 in H; destruct H as (_ & _ & <-); discriminate. Qed.

Lemma secured_ake d e i t mat i' : secure C d e i t (MatAKE mat) = Ok i' -> in_ake i' = in_ake i.
Proof.
  intros S. apply secure3 in S. now destruct S as (k & _ & ->).
Qed.
Lemma handled_start3 d e i em i' out u : em_version em = V3 -> inst_handle C d e i em = (i', out, Ok (UMSessionStarted u)) ->
  in_ake i' = AkeNone /\ in_ake i <> AkeNone /\
  ((exists m, em_message em = MRevealSig m) \/ (exists m, em_message em = MSignature m)).
Proof.
  intros V H. unfold inst_handle in H. rewrite V in H.
  destruct (em_message em) as [m|m|m|m|m|m|m|m|m|m] eqn:M; try (apply pair3 in H; destruct H as (_ & _ & H); discriminate).
  - destruct (ake_handle_dhcommit _ _ _ _) as [st [x|x|]];
      [apply injecting_no_start in H; now destruct (H u)|apply pair3 in H; destruct H as (_ & _ & H); discriminate..].
  - destruct (ake_handle_dhkey _ _ _ _ _) as [st [x|x|]];
      [apply injecting_no_start in H; now destruct (H u)|apply pair3 in H; destruct H as (_ & _ & H); discriminate..].
  - destruct (ake_handle_reveal _ _ _ _ _) as [st [[mat x]|x|]] eqn:K; try (apply pair3 in H; destruct H as (_ & _ & H); discriminate).
    destruct (secure _ _ _ _ _ _) as [i1|x'|] eqn:S; try (apply pair3 in H; destruct H as (_ & _ & H); discriminate).
    apply secured_ake in S. unfold injecting in H. destruct (inject _ _ _ _ _ _) as [o|x'|]; apply pair3 in H; destruct H as (<- & _ & H); try discriminate.
    cbn [set_assembler in_ake set_ake] in *.
    destruct (in_ake i) as [|our rr|our ge gh|our gy sh rep]; cbn [ake_handle_reveal] in K; try discriminate.
    destruct (reveal_result _ _ _ _ _ _ _); try discriminate. assert (st = AkeNone) by congruence. split; [congruence|]. split; [discriminate|]. eauto.
  - destruct (ake_handle_signature _ _ _) as [st [mat|x|]] eqn:K; try (apply pair3 in H; destruct H as (_ & _ & H); discriminate).
    destruct (secure _ _ _ _ _ _) as [i1|x'|] eqn:S; try (apply pair3 in H; destruct H as (_ & _ & H); discriminate).
    apply secured_ake in S. apply pair3 in H; destruct H as (<- & _ & H). cbn [set_assembler in_ake set_ake] in *.
    destruct (in_ake i) as [|our rr|our ge gh|our gy sh rep]; cbn [ake_handle_signature] in K; try discriminate.
    destruct (signature_result _ _ _ _ _); try discriminate. assert (st = AkeNone) by congruence.
    split; [congruence|]. split; [discriminate|]. eauto.
  - apply data3_no_start in H. now destruct (H u).
Qed.

Lemma encoded_start3 e s em s' out : sinv s -> em_version em = V3 ->
  receive_encoded C e s em = (s', out, Ok (UMSessionStarted (em_sender em))) ->
  em_sender em <> 0 /\ in_ake (at_ s' (em_sender em)) = AkeNone /\ in_ake (at_ s (em_sender em)) <> AkeNone.
Proof.
  intros SI V H. assert (X := H). apply encoded_split in X; [|discriminate].
  destruct X as [(_ & _ & _ & X)|[(_ & _ & _ & x & X & _)|(VH & NZ & AL & _)]]; try discriminate. rewrite V in AL. split; [assumption|].
  destruct (si_zero _ SI) as (z & Z & _). assert (RZ : in_receiver z = 0) by (exact (sinv_get _ _ _ SI Z)).
  assert (RI : in_receiver (at_ s (em_sender em)) = em_sender em) by (apply sinv_entry; assumption).
  unfold receive_encoded in H. assert (NZ' := NZ). apply N.eqb_neq in NZ'. rewrite NZ', VH, V in H.
  rewrite allowed_not_refused in H by (try assumption; now left). rewrite Z in H.
  assert (F : on_entry s (em_sender em) (fun i => inst_handle C (se_details s) e i em) = (s', out, Ok (UMSessionStarted (em_sender em))) ->
    in_ake (at_ s' (em_sender em)) = AkeNone /\ in_ake (at_ s (em_sender em)) <> AkeNone).
  { intros K. apply on_entry_inv in K; [|discriminate]. destruct K as (i' & K & ->). fold (at_ s (em_sender em)) in K.
    apply handled_start3 in K; [|assumption]. destruct K as (A & B & _). rewrite at_put_same. auto. }
  destruct (em_message em) eqn:M; try (apply F; exact H). exfalso. clear F.
  unfold transfer_ake_context in H. rewrite RZ in H. cbn [N.eqb] in H.
  destruct (ake_transfer (in_ake z)) as [a|x|]; [|apply on_entry_inv in H; [|discriminate]|apply pair3 in H; destruct H as (_ & _ & H); discriminate].
  - apply on_entry_inv in H; [|discriminate]. destruct H as (i' & H & _). fold (at_ s (em_sender em)) in H.
    unfold adopt_ake_context in H. rewrite RI, NZ' in H.
    apply handled_start3 in H; [|assumption]. destruct H as (_ & _ & [(y & H)|(y & H)]); congruence.
  - destruct H as (i' & H & _). apply handled_start3 in H; [|assumption]. destruct H as (_ & _ & [(y & H)|(y & H)]); congruence.
Qed.

Lemma settled_v3 d h s e1 p1 em s1 h2 s2 e2 p2 em2 s3 out r : history C d h s -> em_version em = V3 -> starts C e1 s p1 em s1 ->
  quiet_run C (em_sender em) s1 h2 s2 -> carries C s2 p2 em2 -> em_version em2 = V3 -> em_sender em2 = em_sender em ->
  receive C e2 s2 p2 = (s3, out, r) -> r <> Ok (UMSessionStarted (em_sender em)).
Proof.
  intros H V (CA & o & R) Q CA2 V2 S2 R2 ->. destruct (history_inv C d h s H) as [I D].
  pose proof (started_enabled _ _ _ _ _ _ R) as EN.
  destruct (received_inv _ _ _ _ _ _ R ltac:(discriminate) I) as [I1 D1].
  destruct (run_inv C _ _ _ (quiet_is_run C _ _ _ _ Q) I1) as [I2 D2].
  eapply carried_in in R; [|exact EN|exact CA|discriminate].
  apply encoded_start3 in R; [|now apply sinv_stored|assumption]. destruct R as (NZ & A & _).
  destruct (quiet_kx C _ _ _ _ Q I1 NZ) as [K _].
  eapply carried_in in R2; [|rewrite D2, D1; exact EN|exact CA2|discriminate].
  rewrite <- S2 in R2. apply encoded_start3 in R2; [|now apply sinv_stored|assumption]. destruct R2 as (_ & _ & B).
  destruct (kx_stored s2 p2 (em_sender em2)) as [K' _]. rewrite S2 in B, K'. congruence.
Qed.
End WithCrypto.
