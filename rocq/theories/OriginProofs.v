(* The key exchange contexts of a session record messages of its history. *)
From Coq Require Import Lia ZifyN ZifyNat.
From Verif Require Import Base BaseLemmas Types Crypto CryptoProofs Encoding EncodingProofs ClientProfile Messages Fragment KeyManager DataV3 Ratchet DataV4
  AKE DAKE SMP SMP4 Protocol Session SpecWire SpecCurve SpecData4 SpecAKE SpecDAKE SpecSession SpecStart SpecOrigin ClientProfileProofs RingProofs AKEProofs AKELemmas DAKEProofs
  SessionProofs SessionPartyProofs SessionInvProofs SessionSendProofs SessionRecvProofs SessionHistProofs SessionLemmas NetAKEProofs NetDAKEProofs StartProofs FollowProofs ReportProofs.
Local Open Scope N_scope.

Lemma res_started (r : res answer) t : {r = Ok (AnMessage (UMSessionStarted t))} + {r <> Ok (AnMessage (UMSessionStarted t))}.
Proof.
  destruct r as [[m| |]|x|]; try (right; discriminate). destruct m as [| | | | |u| | | |]; try (right; discriminate).
  destruct (N.eq_dec u t) as [->|NE]; [left; reflexivity|right; congruence].
Qed.
Lemma status_eq (a b : protocol_status) : {a = b} + {a <> b}.
Proof. decide equality. Qed.

Section WithCrypto.
Context (C : Crypto) (d : details).

Notation pub3 x := (modpow (c_dh_g C) x (c_dh_p C)).
Notation commitment r gx := (mkDHCommit (aes_crypt C r (repeat x00 16) (write_mpi gx)) (sha256 C (write_mpi gx))).

Definition ake_known (h : list event) (u : N) (st : ake_state) : Prop :=
  match st with
  | AkeNone => True
  | AkeAwaitingDHKey our r => exists x, our = mkDh x (pub3 x) /\ has_offered d h u V3 (MDHCommit (commitment r (pub3 x)))
  | AkeAwaitingRevealSig our ge gh => exists y c, our = mkDh y (pub3 y) /\ has_got C d h u V3 (MDHCommit c) /\
      dc_gx_encrypted c = ge /\ dc_gx_hashed c = gh /\ has_sent d h u V3 (MDHKey (mkDHKey (pub3 y)))
  | AkeAwaitingSig our gy s prev => exists x r, our = mkDh x (pub3 x) /\ has_offered d h u V3 (MDHCommit (commitment r (pub3 x))) /\
      has_got C d h u V3 (MDHKey (mkDHKey gy)) /\ has_sent d h u V3 (MRevealSig prev) /\ rv_key prev = r /\
      dh_verify_public_key C gy = true /\ s = modpow gy x (c_dh_p C)
  end.

Definition dake_known (h : list event) (u : N) (st : dake_state) : Prop :=
  match st with
  | DakeInitial => True
  | DakeAwaitingAuthR w => exists y b e0 d0,
      wr_y w = ecdh_of_secret C y /\ wr_b w = dh3_generate C b /\ wr_ecdh0 w = ecdh_of_secret C e0 /\ wr_dh0 w = dh3_generate C d0 /\
      wr_identity w = mkIdentity (wr_payload w) (ec_key C y) (dh3_key C b) (ec_key C e0) (dh3_key C d0) /\
      has_offered d h u V4 (MIdentity (wr_identity w))
  | DakeAwaitingAuthI w => exists x a e0 d0 i m,
      has_got C d h u V4 (MIdentity i) /\ has_sent d h u V4 (MAuthR m) /\
      wi_profile_bob w = id_profile i /\ wi_y w = id_y i /\ wi_b w = id_b i /\ wi_ecdh0_other w = id_ecdh0 i /\ wi_dh0_other w = id_dh0 i /\
      wi_profile_alice w = ar_profile m /\ wi_x w = ar_x m /\ wi_a w = ar_a m /\
      wi_ecdh0 w = ecdh_of_secret C e0 /\ wi_dh0 w = dh3_generate C d0 /\
      ar_x m = ec_key C x /\ ar_a m = dh3_key C a /\ ar_ecdh0 m = ec_key C e0 /\ ar_dh0 m = dh3_key C d0 /\
      wi_k w = mixed_key C (pt_mul C (id_y i) x) (modpow (id_b i) a (c_dh3_p C)) /\
      exists bob, offer_ok C (id_profile i) bob (id_y i) (id_b i) (id_ecdh0 i) (id_dh0 i)
  end.
Definition known (h : list event) (u : N) (i : instance) : Prop := ake_known h u (in_ake i) /\ dake_known h u (in_dake i).

(** ** Longer histories *)

Lemma sent_more h ev u v m : has_sent d h u v m -> has_sent d (h ++ [ev]) u v m.
Proof. intros (x & e & I & T). exists x, e. split; [apply in_app_iff; now left|exact T]. Qed.
Lemma sent_now h o out r e u v m : transported d e u v m out -> has_sent d (h ++ [mkEvent o out r]) u v m.
Proof. intros T. exists (mkEvent o out r), e. split; [apply in_app_iff; right; now left|exact T]. Qed.
Lemma offered_more h ev u v m : has_offered d h u v m -> has_offered d (h ++ [ev]) u v m.
Proof. intros [X|X]; [left|right]; now apply sent_more. Qed.
Lemma got_more h ev u v m : has_got C d h u v m -> has_got C d (h ++ [ev]) u v m.
Proof.
  intros (h1 & s1 & x & h2 & p & em & -> & R). exists h1, s1, x, (h2 ++ [ev]), p, em. split; [|exact R].
  now rewrite <- app_assoc.
Qed.
Lemma got_now h s p out r em : history C d h s -> carries C s p em ->
  has_got C d (h ++ [mkEvent (OpReceive p) out r]) (em_sender em) (em_version em) (em_message em).
Proof. intros H CA. exists h, s, (mkEvent (OpReceive p) out r), [], p, em. auto 10. Qed.

Lemma ake_known_more h ev u st : ake_known h u st -> ake_known (h ++ [ev]) u st.
Proof.
  destruct st as [|our r|our ge gh|our gy s prev]; cbn [ake_known]; [auto| | |].
  - intros (x & A & B). exists x. auto using offered_more.
  - intros (y & c & A & B & D & E & F). exists y, c. auto 10 using sent_more, got_more.
  - intros (x & r & A & B & D & E & F). exists x, r. auto 10 using sent_more, got_more, offered_more.
Qed.
Lemma dake_known_more h ev u st : dake_known h u st -> dake_known (h ++ [ev]) u st.
Proof.
  destruct st as [|w|w]; cbn [dake_known]; [auto| |].
  - intros (y & b & e0 & d0 & A1 & A2 & A3 & A4 & A5 & A6). exists y, b, e0, d0. auto 10 using offered_more.
  - intros (x & a & e0 & d0 & i & m & G & S & R). exists x, a, e0, d0, i, m. auto using sent_more, got_more.
Qed.
Lemma known_more h ev u i : known h u i -> known (h ++ [ev]) u i.
Proof. intros [A B]. split; [now apply ake_known_more|now apply dake_known_more]. Qed.
Lemma known_kx h u i i' : same_kx i i' -> known h u i -> known h u i'.
Proof. intros [A B] [X Y]. split; [now rewrite A|now rewrite B]. Qed.

(** ** Starting an exchange *)

Lemma offered_zero h u v m : has_offered d h 0 v m -> has_offered d h u v m.
Proof. intros [X|X]; now right. Qed.

Lemma dake_initiate_known h o r e u i st m out : dake_initiate C (ev_dake_host e) (ev_dake e) (in_dake i) = (st, Ok m) ->
  transported d e u V4 (MIdentity m) out -> dake_known (h ++ [mkEvent o out r]) u st.
Proof.
  intros H T. unfold dake_initiate in H. destruct (in_dake i); try discriminate.
  destruct (let* payload := _ in _) as [w|x|] eqn:E; try discriminate. injection H as <- <-.
  apply bind_ok in E. destruct E as (p & _ & E). apply bind_ok in E. destruct E as (y & Y & E). cbn zeta in E.
  apply bind_ok in E. destruct E as (e0 & E0 & E). injection E as <-.
  apply ecdh_generate_ok in Y. destruct Y as (ys & ->). apply ecdh_generate_ok in E0. destruct E0 as (es & ->).
  cbn [dake_known wr_y wr_b wr_ecdh0 wr_dh0 wr_identity wr_payload]. exists ys, (dn_dh (ev_dake e)), es, (dn_dh0 (ev_dake e)).
  repeat (split; [reflexivity|]). left. eapply sent_now; exact T.
Qed.

Lemma initiate_known h o r e s v t s' out r0 : initiate C e s v t = (s', out, r0) -> r0 <> Panic -> sinv s -> se_details s = d ->
  (forall u, known h u (at_ s u)) -> forall u, known (h ++ [mkEvent o out r]) u (at_ s' u).
Proof.
  intros H NP SI D K u. unfold initiate in H. apply on_entry_inv in H; [|assumption]. destruct H as (i' & H & ->).
  destruct (N.eq_dec t u) as [->|NE]; [|rewrite at_put_other by assumption; apply known_more, K].
  rewrite at_put_same. fold (at_ s u) in H. rewrite D in H.
  assert (RI : in_receiver (at_ s u) = u) by (apply sinv_entry; assumption). pose proof (K u) as [KA KD].
  unfold inst_initiate in H. destruct v; try (fin3 H; congruence).
  - unfold ake_initiate in H. destruct (dh_generate C (ev_dh e)) as [our|x|] eqn:G; cbn [bind] in H;
      [|fin3 H; split; [now apply ake_known_more|now apply dake_known_more]|fin3 H; congruence].
    apply injecting_inv in H. destruct H as [(J & -> & ->)|[(x & E & _)|(_ & ->)]]; [|now apply inject_no_err in E|congruence].
    apply inject_transported in J. rewrite RI in J. apply dh_generate_ok in G. destruct G as [-> _].
    split; cbn [in_ake in_dake set_ake]; [|now apply dake_known_more].
    cbn [ake_known]. exists (ev_dh e). split; [reflexivity|]. left. eapply sent_now. exact J.
  - destruct (dake_initiate C (ev_dake_host e) (ev_dake e) (in_dake (at_ s u))) as [st [m|x|]] eqn:E; [| |fin3 H; congruence].
    + apply injecting_inv in H. destruct H as [(J & -> & ->)|[(x & E' & _)|(_ & ->)]]; [|now apply inject_no_err in E'|congruence].
      apply inject_transported in J. rewrite RI in J.
      split; cbn [in_ake in_dake set_dake]; [now apply ake_known_more|]. eapply dake_initiate_known; eassumption.
    + fin3 H. assert (st = in_dake (at_ s u)) as ->.
      { unfold dake_initiate in E. destruct (in_dake (at_ s u)); try congruence. destruct (let* payload := _ in _); congruence. }
      split; cbn [in_ake in_dake set_dake]; [now apply ake_known_more|now apply dake_known_more].
Qed.

(** ** A message of the exchange *)

Lemma answer_known h o r e u m bob account contact w ar out : identity_validate C m = Ok bob ->
  answer_identity C (ev_dake_host e) (ev_dake e) (ev_ring e) m bob account contact = Ok (w, ar) ->
  has_got C d (h ++ [mkEvent o out r]) u V4 (MIdentity m) -> transported d e u V4 (MAuthR ar) out ->
  dake_known (h ++ [mkEvent o out r]) u (DakeAwaitingAuthI w).
Proof.
  intros V E G T. unfold answer_identity in E.
  apply bind_ok in E. destruct E as (p & _ & E). apply bind_ok in E. destruct E as (x & X & E). cbn zeta in E.
  apply bind_ok in E. destruct E as (cp & _ & E). apply bind_ok in E. destruct E as (e0 & E0 & E). cbn zeta in E.
  apply bind_ok in E. destruct E as (sg & _ & E). apply bind_ok in E. destruct E as (sh & M & E). injection E as <- <-.
  apply ecdh_generate_ok in X. destruct X as (xs & ->). apply ecdh_generate_ok in E0. destruct E0 as (es & ->).
  apply mixed_new_key in M. apply validate_keys_iff in V.
  cbn [dake_known]. do 6 eexists. split; [exact G|]. split; [eapply sent_now; exact T|].
  cbn [wi_profile_bob wi_y wi_b wi_ecdh0_other wi_dh0_other wi_profile_alice wi_x wi_a wi_ecdh0 wi_dh0 wi_k ar_profile ar_x ar_a ar_ecdh0 ar_dh0].
  repeat (split; [reflexivity|]). split; [exact M|]. exists bob. exact V.
Qed.

Lemma commit_known h o r e u c st st' rp out : ake_known h u st -> ake_handle_dhcommit C st c (ev_dh e) = (st', Ok rp) ->
  has_got C d (h ++ [mkEvent o out r]) u V3 (MDHCommit c) ->
  transported d e u V3 (match rp with ReplyCommit c => MDHCommit c | ReplyKey k => MDHKey k end) out ->
  ake_known (h ++ [mkEvent o out r]) u st'.
Proof.
  intros K H G T.
  assert (INIT : dhcommit_from_initial C st c (ev_dh e) = (st', Ok rp) -> ake_known (h ++ [mkEvent o out r]) u st').
  { intros X. apply from_initial_inv in X; [|discriminate]. destruct X as (our & -> & _ & -> & E). injection E as ->.
    cbn [ake_known]. do 2 eexists. split; [reflexivity|]. split; [exact G|]. split; [reflexivity|]. split; [reflexivity|].
    eapply sent_now. exact T. }
  destruct st as [|our r0|our ge gh|our gy s prev]; cbn [ake_handle_dhcommit] in H; [auto| | |auto].
  - destruct (_ <? _); [|auto]. injection H as <- <-. now apply ake_known_more.
  - injection H as <- <-. now apply ake_known_more.
Qed.

Lemma key_known h o r e u k st st' rp out : ake_known h u st -> ake_handle_dhkey C (ev_dsa e) (ev_nonce e) st k = (st', Ok rp) ->
  has_got C d (h ++ [mkEvent o out r]) u V3 (MDHKey k) -> transported d e u V3 (MRevealSig rp) out ->
  ake_known (h ++ [mkEvent o out r]) u st'.
Proof.
  intros K H G T. destruct st as [|our r0|our ge gh|our gy s prev]; cbn [ake_handle_dhkey] in H; try discriminate.
  - destruct (dh_verify_public_key C (dk_gy k)) eqn:V; cbn [negb] in H; [|discriminate].
    destruct (ev_dsa e) as [kp|]; [|discriminate]. destruct (ake_prove _ _ _ _ _ _) as [eb mb]. injection H as <- <-.
    destruct K as (x & -> & O). cbn [ake_known]. exists x, r0. split; [reflexivity|]. split; [now apply offered_more|].
    split; [destruct k; exact G|]. split; [eapply sent_now; exact T|]. split; [reflexivity|]. split; [exact V|reflexivity].
  - destruct (negb _); [discriminate|]. injection H as <- <-. now apply ake_known_more.
Qed.

Lemma handle_known h s p e i em i' out r r1 : inst_handle C d e i em = (i', out, r) -> r <> Panic -> history C d h s -> carries C s p em ->
  in_receiver i = em_sender em -> known h (em_sender em) i ->
  known (h ++ [mkEvent (OpReceive p) out r1]) (em_sender em) i'.
Proof.
  intros H NP HI CA RI K. pose proof (fun r2 => got_now h s p out r2 em HI CA) as G.
  destruct (em_message em) eqn:M; try (assert (of_conversation (em_message em)) as OC by (rewrite M; exact I);
    apply handle_kx in H; [|exact OC]; apply known_more; eapply known_kx; eassumption).
  all: pose proof K as [KA KD]; rewrite ?M in G; unfold inst_handle in H; rewrite M in H;
    destruct (em_version em) eqn:V; try (fin3 H; congruence); try (fin3 H; apply known_more; exact K).
  - (* D-H Commit *)
    cbn [in_ake set_assembler] in H. destruct (ake_handle_dhcommit C _ _ _) as [st [a|x|]] eqn:E; [| |fin3 H; congruence].
    + apply injecting_inv in H. destruct H as [(J & -> & ->)|[(x & E' & _)|(_ & ->)]]; [|now apply inject_no_err in E'|congruence].
      apply inject_transported in J. cbn [in_receiver set_assembler] in J. rewrite RI in J.
      split; cbn [in_ake in_dake set_ake set_assembler]; [|now apply dake_known_more]. eapply commit_known; eauto.
    + fin3 H. apply (proj1 (failure_no_effect C None [] (ev_dh e) (in_ake i) st x)) in E. subst st. apply known_more. exact K.
  - cbn [in_ake set_assembler] in H. destruct (ake_handle_dhkey C _ _ _ _) as [st [a|x|]] eqn:E; [| |fin3 H; congruence].
    + apply injecting_inv in H. destruct H as [(J & -> & ->)|[(x & E' & _)|(_ & ->)]]; [|now apply inject_no_err in E'|congruence].
      apply inject_transported in J. cbn [in_receiver set_assembler] in J. rewrite RI in J.
      split; cbn [in_ake in_dake set_ake set_assembler]; [|now apply dake_known_more]. eapply key_known; eauto.
    + fin3 H. apply (proj1 (proj2 (failure_no_effect C (ev_dsa e) (ev_nonce e) 0 (in_ake i) st x))) in E. subst st. apply known_more. exact K.
  - cbn [in_ake set_assembler] in H. destruct (ake_handle_reveal C _ _ _ _) as [st [[mat a]|x|]] eqn:E; [| |fin3 H; congruence].
    + assert (st = AkeNone) as ->.
      { destruct (in_ake i); cbn [ake_handle_reveal] in E; try discriminate. destruct (reveal_result _ _ _ _ _ _ _); congruence. }
      destruct (secure C _ _ _ _ _) as [j|x|] eqn:S; [|fin3 H; apply known_more; exact K|fin3 H; congruence].
      apply secure3 in S. destruct S as (k & _ & ->).
      apply injecting_inv in H. destruct H as [(J & -> & ->)|[(x & E' & _)|(_ & ->)]]; [|now apply inject_no_err in E'|congruence].
      split; cbn [in_ake in_dake set_ake set_assembler set_state]; [exact I|now apply dake_known_more].
    + fin3 H. apply (proj1 (proj2 (proj2 (failure_no_effect C (ev_dsa e) (ev_nonce e) 0 (in_ake i) st x)))) in E. subst st. apply known_more. exact K.
  - cbn [in_ake set_assembler] in H. destruct (ake_handle_signature C _ _) as [st [mat|x|]] eqn:E; [| |fin3 H; congruence].
    + assert (st = AkeNone) as ->.
      { destruct (in_ake i); cbn [ake_handle_signature] in E; try discriminate. destruct (signature_result _ _ _ _ _); congruence. }
      destruct (secure C _ _ _ _ _) as [j|x|] eqn:S; [|fin3 H; apply known_more; exact K|fin3 H; congruence].
      apply secure3 in S. destruct S as (k & _ & ->). fin3 H.
      split; cbn [in_ake in_dake set_ake set_assembler set_state]; [exact I|now apply dake_known_more].
    + fin3 H. apply (proj2 (proj2 (proj2 (failure_no_effect C None [] 0 (in_ake i) st x)))) in E. subst st. apply known_more. exact K.
  - destruct (dake_handle_identity C _ _ _ _ _ _ _) as [st [a|x|]] eqn:E; [| |fin3 H; congruence].
    + apply injecting_inv in H. destruct H as [(J & -> & ->)|[(x & E' & _)|(_ & ->)]]; [|now apply inject_no_err in E'|congruence].
      apply inject_transported in J. rewrite RI in J.
      split; cbn [in_ake in_dake set_dake]; [now apply ake_known_more|].
      apply identity_state in E. destruct E as [[-> _]|(bob & w & ar & VA & A & -> & R)]; [now apply dake_known_more|].
      injection R as ->. eapply answer_known; eauto.
    + fin3 H. apply (proj1 (proj2 (dake_failure_no_effect C _ _ _ [] 0 0 _ _ _ _ _))) in E. subst st. apply known_more. exact K.
  - destruct (dake_handle_auth_r C _ _ _ _ _ _ _ _ _) as [st [[mat a]|x|]] eqn:E; [| |fin3 H; congruence].
    + assert (st = DakeInitial) as ->.
      { destruct (in_dake i); cbn [dake_handle_auth_r] in E; try discriminate. destruct (let* alice := _ in _); congruence. }
      destruct (inject _ _ _ _ _ _) as [o|x|]; [|fin3 H; apply known_more; exact K|fin3 H; congruence].
      destruct (secure C _ _ _ _ _) as [j|x|] eqn:S; [|fin3 H; apply known_more; exact K|fin3 H; congruence].
      rewrite secure4 in S. injection S as <-. fin3 H.
      split; cbn [in_ake in_dake set_dake set_state]; [now apply ake_known_more|exact I].
    + fin3 H. apply (proj1 (proj2 (proj2 (dake_failure_no_effect C _ (mkDakeRnd [] 0 [] 0) _ _ _ _ _ _ _ _ _)))) in E. subst st. apply known_more. exact K.
  - destruct (dake_handle_auth_i C _ _ _ _ _) as [st [mat|x|]] eqn:E; [| |fin3 H; congruence].
    + assert (st = in_dake i) as -> by (destruct (in_dake i); cbn [dake_handle_auth_i] in E; congruence).
      destruct (secure C _ _ _ _ _) as [j|x|] eqn:S; [|fin3 H; apply known_more; exact K|fin3 H; congruence].
      rewrite secure4 in S. injection S as <-. fin3 H.
      split; cbn [in_ake in_dake set_dake set_state]; [now apply ake_known_more|now apply dake_known_more].
    + fin3 H. assert (st = in_dake i) as -> by (destruct (in_dake i); cbn [dake_handle_auth_i] in E; congruence).
      split; cbn [in_ake in_dake set_dake]; [now apply ake_known_more|now apply dake_known_more].
Qed.

(** ** Calls *)

Lemma adopted_known h s em i0 : sinv s -> (forall u, known h u (at_ s u)) ->
  adopted (get_inst 0 (se_instances s)) em (entry (em_sender em) (se_instances s)) i0 -> known h (em_sender em) i0.
Proof.
  intros SI K A. pose proof (K (em_sender em)) as [KA KD]. pose proof (K 0) as [ZA ZD].
  destruct A as [->|[(zi & a & Z & _ & _ & T & ->)|(zi & a & Z & _ & _ & T & ->)]]; [now split| |].
  - unfold at_, entry in ZA. rewrite Z in ZA. destruct (in_ake zi); cbn [ake_transfer] in T; try discriminate. injection T as <-.
    split; [|exact KD]. cbn [in_ake set_ake]. destruct ZA as (x & E & O). exists x. split; [exact E|]. now apply offered_zero.
  - unfold at_, entry in ZD. rewrite Z in ZD. destruct (in_dake zi) as [|w|w]; cbn [dake_transfer] in T; try discriminate. injection T as <-.
    split; [exact KA|]. cbn [in_dake set_dake]. destruct ZD as (y & b & e0 & d0 & A1 & A2 & A3 & A4 & A5 & O). exists y, b, e0, d0.
    repeat (split; [assumption|]). now apply offered_zero.
Qed.

Lemma completes_carries s p b em : completes s p b -> parse C b = Ok (MsgEncoded em) -> carries C s p em.
Proof. intros A B. exists b. auto. Qed.

Lemma call_known h es s o s' out r : history C d h s -> call C es s o = (s', out, r) -> r <> Panic ->
  (forall u, known h u (at_ s u)) -> forall u, known (h ++ [mkEvent o out r]) u (at_ s' u).
Proof.
  intros HI H NP K. pose proof (SessionSendProofs.history_inv C d h s HI) as [SI D].
  destruct o; try (intros u; apply known_more; eapply known_kx; [exact (other_kx C _ _ _ _ _ _ u H NP SI I)|apply K]).
  2:{ unfold call in H. apply answering_inv in H; [|assumption]. destruct H as (r0 & H & _ & NP0). eapply initiate_known; eassumption. }
  pose proof NP as NPP. unfold call in H. apply answering_inv in H; [|assumption]. destruct H as (r0 & H & RR & NP0).
  apply receive_split in H; [|assumption].
  destruct H as [(_ & -> & _)|[(_ & b & CO & H)|(_ & _ & _ & [->|(-> & _)] & _)]]; try (intros u; apply known_more, K);
    try (intros u; apply known_more; eapply known_kx; [apply kx_stored|apply K]).
  assert (K0 : forall u, known h u (at_ (stored s payload) u)) by (intros u; eapply known_kx; [apply kx_stored|apply K]).
  pose proof (sinv_stored _ payload SI) as SI0. assert (D0 : se_details (stored s payload) = d) by (now rewrite stored_details).
  remember (stored s payload) as s0 eqn:ES0. clear ES0.
  apply message_split in H; [|assumption].
  destruct H as [(x & _ & -> & _)|[(t & _ & -> & _)|[(t & _ & H)|[(vs & t & _ & H)|[(vs & _ & H)|(em & PA & H)]]]]];
    try (intros u; apply known_more, K0).
  - apply deliver_inv in H; [|assumption]. destruct H as (-> & _). intros u; apply known_more, K0.
  - destruct H as [(_ & H)|(_ & v & s1 & r1 & _ & H1 & NP1 & H)].
    + apply deliver_inv in H; [|assumption]. destruct H as (-> & _). intros u; apply known_more, K0.
    + assert (s' = s1) as ->.
      { destruct H as [(_ & H)|(-> & _)]; [|reflexivity]. apply deliver_inv in H; [|assumption]. now destruct H as (-> & _). }
      eapply initiate_known; eassumption.
  - destruct H as [(_ & -> & _)|(v & r1 & _ & H1 & H)]; [intros u; apply known_more, K0|]. eapply initiate_known; [exact H1| |assumption..].
    destruct H as [((m & ->) & _)|(_ & x & ->)]; congruence.
  - pose proof (completes_carries _ _ _ _ CO PA) as CA. apply encoded_split in H; [|assumption].
    destruct H as [(-> & _)|[(-> & _)|(_ & NZ & _ & i0 & i' & A & H & ->)]]; try (intros u; apply known_more, K0).
    rewrite D0 in H. intros u. destruct (N.eq_dec (em_sender em) u) as [<-|NE].
    + rewrite at_put_same. eapply handle_known; [exact H|assumption|exact HI|exact CA| |].
      * apply adopted_same in A. destruct A as (_ & -> & _). apply sinv_entry. exact SI0.
      * eapply adopted_known; eassumption.
    + rewrite at_put_other by assumption. apply known_more, K0.
Qed.

Lemma history_known h s : history C d h s -> forall u, known h u (at_ s u).
Proof.
  intros H. induction H as [|h s es o s' out r H IH Hc NP].
  - intros u. unfold at_, entry. cbn [session_new se_instances get_inst]. destruct (0 =? u); split; exact I.
  - eapply call_known; eassumption.
Qed.

(** ** Starting a conversation *)

Context (CO : curve_ok C) (GP : 0 < c_dh_g C).

Lemma handle_started h e i em i' out t : inst_handle C d e i em = (i', out, Ok (UMSessionStarted t)) ->
  in_receiver i = em_sender em -> known h (em_sender em) i -> t = em_sender em /\ proven C d h t em (in_state i').
Proof.
  intros H RI [KA KD].
  assert (NOT : is_data em -> False).
  { intros DA. pose proof H as H0. apply handle_split in H0; [|discriminate].
    destruct H0 as [([ND|(m & M & VN)] & [X|[(X & _)|(x & X)]] & _)|[(ig & _ & RF & _)|(st' & text & _ & RP & _)]]; try discriminate; try contradiction.
    - unfold inst_handle in H. rewrite M in H. destruct DA as [(m' & _ & M')|(m' & V & M')]; [congruence|]. rewrite V in H.
      unfold inst_data4 in H. destruct (data4_validate C m) as [[]|x|]; try discriminate. congruence.
    - now apply refuses_not_start with (u := t) in RF.
    - now apply reported_not_start with (u := t) in RP. }
  unfold inst_handle in H. destruct (em_version em) eqn:V; destruct (em_message em) eqn:M; try discriminate H.
  - destruct (ake_handle_dhcommit C _ _ _) as [st [a|x|]]; try discriminate H. destruct (inject _ _ _ _ _ _); discriminate H.
  - destruct (ake_handle_dhkey C _ _ _ _) as [st [a|x|]]; try discriminate H. destruct (inject _ _ _ _ _ _); discriminate H.
  - cbn [in_ake set_assembler] in H. destruct (ake_handle_reveal C _ _ _ _) as [st [[mat a]|x|]] eqn:E; try discriminate H.
    destruct (secure C _ _ _ _ _) as [j|x|] eqn:S; try discriminate H. apply secure3 in S. destruct S as (k & KN & ->).
    apply injecting_inv in H. destruct H as [(J & -> & X)|[(x & _ & _ & _ & X)|(_ & X)]]; try discriminate X. injection X as ->.
    cbn [in_receiver set_assembler]. split; [exact RI|]. rewrite RI. left. split; [exact V|]. left.
    apply reveal_needs_proof in E; [|exact GP]. destruct E as (our & ge & gh & gx & more & rest & E & _ & P).
    rewrite E in KA. destruct KA as (y & c & -> & G & <- & <- & SE). cbn [dh_private dh_public] in P. cbn zeta in P.
    destruct P as (P1 & P2 & P3 & P4 & P5 & P6 & P7).
    exists c, y, m, gx, more, rest, (am_their_dsa mat). cbn zeta. split; [exact M|]. split; [exact G|]. split; [exact SE|].
    split; [exact P1|]. split; [exact P2|]. split; [exact P3|]. split; [exact P4|].
    exists k, (ev_km0 e), (ev_km1 e). rewrite P6, P7 in KN. split; [exact KN|]. rewrite <- P5. reflexivity.
  - cbn [in_ake set_assembler] in H. destruct (ake_handle_signature C _ _) as [st [mat|x|]] eqn:E; try discriminate H.
    destruct (secure C _ _ _ _ _) as [j|x|] eqn:S; try discriminate H. apply secure3 in S. destruct S as (k & KN & ->).
    injection H as <- <- <-.
    cbn [in_receiver set_assembler]. split; [exact RI|]. rewrite RI. left. split; [exact V|]. right.
    destruct (in_ake i) as [|our r|our ge gh|our gy sv prev]; cbn [ake_handle_signature] in E; try discriminate E.
    destruct (signature_result C our gy sv m) as [mat'|x|] eqn:ER; try discriminate E. injection E as _ ->.
    destruct KA as (x & r & -> & O & G & SE & RK & VG & ->).
    apply signature_result_ok in ER. destruct ER as (E1 & E2 & E3 & E4). apply dh_verify_iff in VG; [|exact GP].
    exists x, r, gy, prev, m, (am_their_dsa mat). cbn zeta. split; [exact M|]. split; [exact O|]. split; [exact G|]. split; [exact SE|].
    split; [exact RK|]. split; [exact VG|]. split; [exact E1|].
    exists k, (ev_km0 e), (ev_km1 e). rewrite E3, E4 in KN. split; [exact KN|]. rewrite <- E2. reflexivity.
  - exfalso. apply NOT. left. eauto.
  - destruct (dake_handle_identity C _ _ _ _ _ _ _) as [st [a|x|]]; try discriminate H. destruct (inject _ _ _ _ _ _); discriminate H.
  - destruct (dake_handle_auth_r C _ _ _ _ _ _ _ _ _) as [st [[mat a]|x|]] eqn:E; try discriminate H.
    destruct (inject _ _ _ _ _ _) as [o|x|]; try discriminate H. rewrite secure4 in H. injection H as <- <- <-. split; [exact RI|]. rewrite RI. right. split; [exact V|]. left.
    apply (auth_r_needs_proof C CO) in E. destruct E as (w & alice & bob & r0 & E & _ & P1 & P2 & P3 & P4 & P5 & P6 & P7).
    rewrite E in KD. destruct KD as (y & b & e0 & d0 & W1 & W2 & W3 & W4 & W5 & O).
    destruct w as [wy wb wp we wd wi]. cbn [wr_y wr_b wr_ecdh0 wr_dh0 wr_identity wr_payload] in *. subst wy wb we wd wi.
    pose proof (proj1 P4) as SS.
    eexists _, m, bob, alice, y, b, e0, d0, (ev_now e), r0, _, _, (dm_ratchet mat). split; [exact M|]. split; [exact O|].
    repeat (split; [reflexivity|]). split; [exact P1|]. split; [exact P2|]. split; [exact P3|]. cbn zeta.
    split; [rewrite SS in P4; exact P4|]. split; [exact P5|]. cbn [in_state set_state]. rewrite P6, P7, SS. reflexivity.
  - destruct (dake_handle_auth_i C _ _ _ _ _) as [st [mat|x|]] eqn:E; try discriminate H. rewrite secure4 in H. injection H as <- <- <-. split; [exact RI|]. rewrite RI. right. split; [exact V|]. right.
    destruct (in_dake i) as [|w|w]; cbn [dake_handle_auth_i] in E; try discriminate E. injection E as _ E.
    destruct KD as (x & av & e0 & d0 & im & ar & G & SE & Q1 & Q2 & Q3 & Q4 & Q5 & Q6 & Q7 & Q8 & Q9 & Q10 & Q11 & Q12 & Q13 & Q14 & Q15 & bob & OK).
    apply bind_ok in E. destruct E as (alice & VA & E). cbn zeta in E. apply bind_ok in E. destruct E as (bob' & VB & E).
    apply bind_ok in E. destruct E as ([] & RV & E). apply bind_ok in E. destruct E as (sh & MX & E).
    apply bind_ok in E. destruct E as (bob2 & VB2 & E). injection E as <-.
    assert (bob' = bob) as -> by (destruct OK as [OK _]; apply payload_validate_iff in OK; rewrite Q1 in VB; congruence).
    assert (bob2 = bob) as -> by congruence.
    apply payload_validate_iff in VA. apply ring_validate_iff in RV; [|exact CO]. rewrite Q6 in VA.
    exists im, ar, m, bob, alice, x, av, e0, d0, (ev_now e), (dr_initialize C SENDER sh (dake_root C (wi_k w)) (ev_now e)).
    split; [exact M|]. split; [exact G|]. split; [exact SE|]. split; [exact Q11|]. split; [exact Q12|]. split; [exact Q13|]. split; [exact Q14|].
    split; [exact VA|]. split; [exact OK|]. split.
    { rewrite <- auth_i_text_eq. rewrite Q1, Q2, Q3, Q4, Q5, Q6, Q7, Q8, Q9, Q10 in RV. unfold message_view. cbn [vw_bob vw_alice vw_y vw_x vw_b vw_a vw_bob_tag vw_alice_tag vw_bob_ecdh0 vw_bob_dh0 vw_alice_ecdh0 vw_alice_dh0 vw_bob_name vw_alice_name].
      rewrite Q13, Q14. exact RV. }
    cbn zeta. rewrite <- Q15. split.
    + split; [reflexivity|]. exists sh. rewrite Q4, Q5, Q9, Q10 in MX. split; [exact MX|reflexivity].
    + reflexivity.
  - exfalso. apply NOT. right. eauto.
Qed.

Theorem start_proven h s es p s' out t : history C d h s -> call C es s (OpReceive p) = (s', out, Ok (AnMessage (UMSessionStarted t))) ->
  exists em, carries C s p em /\ em_sender em = t /\ em_receiver em = de_tag d /\ allowed d (em_version em) /\ proven C d h t em (state_of s' t).
Proof.
  intros HI H. pose proof (SessionSendProofs.history_inv C d h s HI) as [SI D]. pose proof (history_known h s HI) as K.
  unfold call in H. apply answering_inv in H; [|discriminate]. destruct H as (r0 & H & RR & NP0).
  assert (r0 = Ok (UMSessionStarted t)) as -> by (destruct r0; cbn [res_map] in RR; congruence). clear RR NP0.
  apply receive_split in H; [|discriminate].
  destruct H as [(_ & _ & _ & X)|[(_ & b & CP & H)|(_ & _ & _ & _ & [X|(x & X)])]]; try discriminate X.
  assert (K0 : forall u, known h u (at_ (stored s p) u)) by (intros u; eapply known_kx; [apply kx_stored|apply K]).
  pose proof (sinv_stored _ p SI) as SI0. assert (D0 : se_details (stored s p) = d) by (now rewrite stored_details).
  remember (stored s p) as s0 eqn:ES0. clear ES0.
  apply message_split in H; [|discriminate].
  destruct H as [(x & _ & _ & _ & X)|[(z & _ & _ & [(X & _)|(x & _ & _ & X)])|[(z & _ & H)|[(vs & z & _ & H)|[(vs & _ & H)|(em & PA & H)]]]]];
    try discriminate X.
  - apply deliver_inv in H; [|discriminate]. destruct H as (_ & _ & H). destruct H as (b0 & H). destruct H as [_ H]. destruct (_ || _); discriminate H.
  - destruct H as [(_ & H)|(_ & v & s1 & r1 & _ & H1 & NP1 & H)].
    + apply deliver_inv in H; [|discriminate]. destruct H as (_ & _ & H). destruct H as (b0 & H). destruct H as [_ H]. destruct (_ || _); discriminate H.
    + destruct H as [(_ & H)|(_ & <- & x & X)]; [|discriminate X].
      apply deliver_inv in H; [|discriminate]. destruct H as (_ & _ & H). destruct H as (b0 & H). destruct H as [_ H]. destruct (_ || _); discriminate H.
  - destruct H as [(_ & _ & _ & X)|(v & r1 & _ & _ & [(_ & X)|(<- & x & X)])]; discriminate X.
  - pose proof (completes_carries _ _ _ _ CP PA) as CA. apply encoded_split in H; [|discriminate].
    destruct H as [(_ & _ & _ & X)|[(_ & _ & _ & x & X & _)|(VH & NZ & AL & i0 & i' & A & H & ->)]]; try discriminate X.
    rewrite D0 in *. assert (RI : in_receiver i0 = em_sender em).
    { pose proof (adopted_same _ _ _ _ A) as (_ & -> & _). apply sinv_entry. exact SI0. }
    pose proof (adopted_known h s0 em i0 SI0 K0 A) as K1.
    pose proof (handle_started h _ i0 em i' out t H RI K1) as [-> P].
    exists em. split; [exact CA|]. split; [reflexivity|]. split; [|split; [exact AL|]].
    + pose proof (header_legal d em VH) as (_ & _ & _ & RC & Z). destruct RC as [RC|RC]; [|exact RC]. exfalso.
      destruct (Z RC) as (m & [M|(m2 & M)]).
      * destruct P as [(_ & [(? & ? & ? & ? & ? & ? & ? & Q & _)|(? & ? & ? & ? & ? & ? & Q & _)])|(_ & [P|P])]; try congruence.
        -- destruct P as (? & ? & ? & ? & ? & ? & ? & ? & ? & ? & ? & ? & ? & Q & _). congruence.
        -- destruct P as (? & ? & ? & ? & ? & ? & ? & ? & ? & ? & ? & Q & _). congruence.
      * destruct P as [(_ & [(? & ? & ? & ? & ? & ? & ? & Q & _)|(? & ? & ? & ? & ? & ? & Q & _)])|(_ & [P|P])]; try congruence.
        -- destruct P as (? & ? & ? & ? & ? & ? & ? & ? & ? & ? & ? & ? & ? & Q & _). congruence.
        -- destruct P as (? & ? & ? & ? & ? & ? & ? & ? & ? & ? & ? & Q & _). congruence.
    + unfold state_of. rewrite get_put_same. exact P.
Qed.

(** ** Conversations *)

Lemma start_receives es s o s' out t : sinv s -> call C es s o = (s', out, Ok (AnMessage (UMSessionStarted t))) -> exists p, o = OpReceive p.
Proof.
  intros SI H. unfold call in H. destruct o; [eauto|exfalso..]; (apply answering_inv in H; [|discriminate]; destruct H as (r0 & H & E & NP0));
    destruct r0 as [m|x|]; try discriminate E; cbn [res_map] in E.
  - injection E as <-. apply initiate_kx in H; [|discriminate|assumption].
    destruct H as [(_ & x & X)|[(_ & X & _)|(_ & _ & _ & X & _)]]; discriminate X.
  - injection E as <-. unfold end_session in H. apply on_instance_inv in H; [|discriminate].
    destruct H as [(_ & _ & _ & X)|(i & i' & _ & H & _)]; [discriminate X|]. now apply reset_not_start in H.
Qed.

Lemma conversation_begun h s t : history C d h s -> status_of s t = Encrypted ->
  exists h1 s1 p out s2 h2 em, h = h1 ++ mkEvent (OpReceive p) out (Ok (AnMessage (UMSessionStarted t))) :: h2 /\ history C d h1 s1 /\
    carries C s1 p em /\ em_sender em = t /\ em_receiver em = de_tag d /\ allowed d (em_version em) /\
    proven C d h1 t em (state_of s2 t) /\ history C d (h1 ++ [mkEvent (OpReceive p) out (Ok (AnMessage (UMSessionStarted t)))]) s2 /\
    run C s2 h2 s /\ Forall (fun ev => ~ started_with t ev) h2.
Proof.
  intros H SE.
  revert SE. induction H as [|h s es o s' out r H IH Hc NP]; intros SE.
  - exfalso. unfold status_of, state_of in SE. cbn [session_new se_instances get_inst] in SE. destruct (0 =? t); discriminate SE.
  - pose proof (SessionSendProofs.history_inv C d h s H) as [SI D].
    assert (STEP : run C s [mkEvent o out r] s') by (apply (run_call C s [] s es o s' out r (run_nil C s) Hc NP)).
    assert (HH : history C d (h ++ [mkEvent o out r]) s') by (econstructor; eassumption).
    destruct (res_started r t) as [E|NE].
    + subst r. destruct (start_receives _ _ _ _ _ _ SI Hc) as (p & ->).
      destruct (start_proven _ _ _ _ _ _ _ H Hc) as (em & B1 & B2 & B3 & B4 & B5).
      exists h, s, p, out, s', [], em. repeat (split; [first [assumption|reflexivity]|]). split; [constructor|constructor].
    + assert (status_of s t = Encrypted) as S0.
      { destruct (status_eq (status_of s' t) (status_of s t)) as [X|X]; [congruence|]. exfalso.
        destruct (changes_told C d h s es o s' out r t H Hc NP X) as [(_ & _ & Y)|[(_ & Y & _)|(Y & _)]]; congruence. }
      destruct (IH S0) as (h1 & s1 & p & o1 & s2 & h2 & em & A1 & A2 & A3 & A4 & A5 & A6 & A7 & A8 & A9 & A10).
      exists h1, s1, p, o1, s2, (h2 ++ [mkEvent o out r]), em. split; [rewrite A1, <- app_assoc; reflexivity|].
      repeat (split; [assumption|]). split; [econstructor; eassumption|]. apply Forall_app. split; [exact A10|]. constructor; [exact NE|constructor].
Qed.
Theorem conversation_proven h s t : history C d h s -> status_of s t = Encrypted ->
  exists h1 s1 p out s2 h2 em, h = h1 ++ mkEvent (OpReceive p) out (Ok (AnMessage (UMSessionStarted t))) :: h2 /\ history C d h1 s1 /\
    carries C s1 p em /\ em_sender em = t /\ em_receiver em = de_tag d /\ allowed d (em_version em) /\
    proven C d h1 t em (state_of s2 t) /\
    run C s2 h2 s /\ Forall (fun ev => ~ started_with t ev) h2 /\ ses_ssid s t = ses_ssid s2 t.
Proof.
  intros H SE. destruct (conversation_begun _ _ _ H SE) as (h1 & s1 & p & out & s2 & h2 & em & A1 & A2 & A3 & A4 & A5 & A6 & A7 & A8 & A9 & A10).
    exists h1, s1, p, out, s2, h2, em. repeat (split; [assumption|]).
    assert (S2 : status_of s2 t = Encrypted).
    { unfold status_of. destruct A7 as [(_ & [A|A])|(_ & [A|A])].
      - destruct A as (? & ? & ? & ? & ? & ? & ? & _ & _ & _ & _ & _ & _ & _ & (? & ? & ? & _ & ->)). reflexivity.
      - destruct A as (? & ? & ? & ? & ? & ? & _ & _ & _ & _ & _ & _ & _ & (? & ? & ? & _ & ->)). reflexivity.
      - destruct A as (? & ? & ? & ? & ? & ? & ? & ? & ? & ? & ? & ? & ? & _ & _ & _ & _ & _ & _ & _ & _ & _ & _ & _ & ->). reflexivity.
      - destruct A as (? & ? & ? & ? & ? & ? & ? & ? & ? & ? & ? & _ & _ & _ & _ & _ & _ & _ & _ & _ & _ & _ & ->). reflexivity. }
    destruct (ssid_constant C d _ s2 h2 s t A8 S2 A9 A10 SE) as (x & -> & ->). reflexivity.
Qed.
End WithCrypto.
