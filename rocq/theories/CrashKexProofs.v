(* When the messages of a key exchange make a client panic, and what is known of messages that were read. *)
From Verif Require Import Base BaseLemmas Types Crypto CryptoProofs Encoding EncodingProofs ClientProfile ClientProfileProofs
  Messages MessagesProofs Base64 Fragment KeyManager DataV3 Ratchet DataV4 DataV4Proofs AKE AKEProofs DAKE DAKEProofs SMP SMP4
  Protocol Session SpecWire SpecCurve SpecData3 SpecData4 SpecSMP SpecSMP4 SpecDAKE SpecSession RingProofs
  History3Proofs SpecCrash CrashProofs CrashDataProofs.
From Coq Require Import Lia ZifyN ZifyNat.
Local Open Scope N_scope.

Section WithCrypto.
Context (C : Crypto) (GO : smp4_group C).

(** ** Messages as they are read *)

Definition profile_in (p : profile_payload) : Prop := forall cp, payload_accepted C p cp -> pt_valid C (cp_forging cp).
Definition wire_in (em : encoded_message) : Prop :=
  match em_version em, em_message em with
  | V3, MData m => d3_sender_keyid m <> 0 /\ d3_receiver_keyid m <> 0 /\ length (d3_ctr m) = 8%nat
  | V4, MIdentity m => profile_in (id_profile m) /\ pt_valid C (id_y m) /\ pt_valid C (id_ecdh0 m)
  | V4, MAuthR m => profile_in (ar_profile m) /\ pt_valid C (ar_x m) /\ pt_valid C (ar_ecdh0 m)
  | V4, MData4 m => pt_valid C (d4_ecdh m) /\ d4_j m <= LAST32
  | _, MUnencoded _ => False
  | _, _ => True
  end.

Lemma wire_p2 : (2 < c_ed_p C)%Z.
Proof. apply GO. Qed.
Lemma wire_stable : decode_stable C.
Proof.
  intros e q. apply pt_decode_encode; [pose proof wire_p2; lia|]. destruct GO as (_ & M & _).
  rewrite Zodd_mod. replace (c_ed_p C mod 2)%Z with 1%Z; [reflexivity|]. rewrite (Z.div_mod (c_ed_p C) 4), M by lia.
  replace (4 * (c_ed_p C / 4) + 3)%Z with (1 + (2 * (c_ed_p C / 4) + 1) * 2)%Z by lia. now rewrite Z_mod_plus_full.
Qed.
Lemma read_point_valid buf p rest : read_ed448_point C buf = Ok (p, rest) -> pt_valid C p.
Proof.
  unfold read_ed448_point. intros H. bind_inv H. destruct (pt_decode C l) as [p'|] eqn:D; [|discriminate].
  apply decoded_valid in D; [|apply wire_p2]. congruence.
Qed.
Lemma wire_valid p : point_wire_ok C p -> pt_valid C p.
Proof. intros H. eapply decoded_valid; [apply wire_p2|exact H]. Qed.
Lemma payload_in buf p rest : read_payload C buf = Ok (p, rest) -> profile_in p.
Proof.
  intros H cp (_ & _ & F & _). apply read_payload_wire_ok in H.
  2: { exact wire_stable. }
  destruct H as (FO & _). rewrite Forall_forall in FO. unfold only in F.
  assert (I : In (cp_forging cp) (flat_map sel_forging (pl_fields p))) by (rewrite F; left; reflexivity).
  apply in_flat_map in I. destruct I as (f & I & J). destruct f; cbn in J; try contradiction.
  destruct J as [->|[]]. apply FO in I. now apply wire_valid.
Qed.
Lemma content_in v t buf m rest a b : read_content C v t buf = Ok (m, rest) -> wire_in (mkEncoded v a b m).
Proof.
  intros H. unfold read_content in H. unfold wire_in. cbn [em_version em_message].
  destruct v; try discriminate;
    repeat match type of H with
    | (if ?c then _ else _) = _ => destruct c
    end; try discriminate; apply map_fst_ok in H as (x & H & ->); try exact I.
  - unfold read_data3 in H. repeat bind_inv H. injection H as <- <-. cbn.
    apply read_keyid_exact in E0, E1. apply read_fixed_exact in E3. unfold keyid_range in *.
    split; [lia|]. split; [lia|]. apply E3.
  - unfold read_identity in H. repeat bind_inv H. injection H as <- <-. cbn.
    apply payload_in in E. apply read_point_valid in E0, E2. auto.
  - unfold read_authr in H. repeat bind_inv H. injection H as <- <-. cbn.
    apply payload_in in E. apply read_point_valid in E0, E3. auto.
  - unfold read_data4 in H. repeat bind_inv H. injection H as <- <-. cbn.
    apply read_u32_exact in E2. apply read_point_valid in E3. unfold LAST32. split; [assumption|lia].
Qed.
Lemma parse_in b em : parse C b = Ok (MsgEncoded em) -> wire_in em.
Proof.
  intros H. unfold parse in H. destruct (_ && _).
  - unfold parse_encoded_message in H. destruct (b64_decode _); [|discriminate].
    bind_inv H. injection H as <-. unfold read_encoded_message in E. repeat bind_inv E. injection E as <- <-.
    eapply content_in. eassumption.
  - exfalso. unfold parse_plain_message in H.
    destruct (starts_with _ _); [discriminate|]. destruct (find_query b) as [[g|]|]; try discriminate.
    destruct (find_tag b) as [[[? gs] ?]|]; [|discriminate]. destruct (rev gs); discriminate.
Qed.

(** ** OTRv3 *)

Lemma generate_panic r : dh_generate C r = Panic -> r = 0.
Proof. unfold dh_generate. destruct (N.eqb_spec r 0); [auto|discriminate]. Qed.
Lemma generate_not_err r x : dh_generate C r <> Err x.
Proof. unfold dh_generate. destruct (r =? 0); discriminate. Qed.

Lemma dhcommit_panic st m rnd st' : ake_handle_dhcommit C st m rnd = (st', Panic) -> rnd = 0.
Proof.
  assert (I : dhcommit_from_initial C st m rnd = (st', Panic) -> rnd = 0).
  { unfold dhcommit_from_initial. destruct (dh_generate C rnd) as [k|x|] eqn:E; intros H; try discriminate H. now apply generate_panic. }
  unfold ake_handle_dhcommit. destruct st; try exact I; [|discriminate]. destruct (_ <? _); [discriminate|exact I].
Qed.
Lemma dhkey_panic host nonce st m st' : ake_handle_dhkey C host nonce st m = (st', Panic) -> host = None.
Proof.
  unfold ake_handle_dhkey. destruct st; try discriminate.
  - destruct (negb _); [discriminate|]. destruct host; [|reflexivity]. cbv zeta. destruct (ake_prove _ _ _ _ _ _). discriminate.
  - destruct (negb _); discriminate.
Qed.
Lemma reveal_panic host nonce st m st' : ake_handle_reveal C host nonce st m = (st', Panic) -> host = None.
Proof.
  unfold ake_handle_reveal. destruct st; try discriminate.
  destruct (reveal_result _ _ _ _ _ _ _) as [r|x|] eqn:E; try discriminate.
  intros _. destruct host as [k|]; [|reflexivity]. now apply reveal_result_safe in E.
Qed.
Lemma signature_panic st m st' : ake_handle_signature C st m <> (st', Panic).
Proof.
  unfold ake_handle_signature. destruct st; try discriminate.
  destruct (signature_result _ _ _ _ _) as [r|x|] eqn:E; try discriminate. now apply signature_result_safe in E.
Qed.

Definition ake_in (st : ake_state) : Prop :=
  match st with AkeAwaitingSig _ gy _ _ => dh_verify_public_key C gy = true | _ => True end.

Lemma verified_nonzero v : 0 < c_dh_g C -> dh_verify_public_key C v = true -> v <> 0.
Proof. intros G. unfold dh_verify_public_key. rewrite Bool.andb_true_iff, !N.leb_le. lia. Qed.

Lemma reveal_mat host nonce our enc hash m mat sg : reveal_result C host nonce our enc hash m = Ok (mat, sg) ->
  am_our_dh mat = our /\ dh_verify_public_key C (am_their_dh mat) = true.
Proof.
  unfold reveal_result. intros H. bind_inv H. bind_inv H. bind_inv H. cbv zeta in H. bind_inv H.
  apply bind_ok in H. destruct H as ([[[pk kid] sg'] r1] & _ & H). bind_inv H. destruct host as [k|]; [|discriminate].
  destruct (ake_prove _ _ _ _ _ _). injection H as <- _. cbn [am_our_dh am_their_dh]. split; [reflexivity|].
  unfold check_ake in E1. destruct (dh_verify_public_key C n); [reflexivity|discriminate].
Qed.
Lemma signature_mat our gy s m mat : signature_result C our gy s m = Ok mat -> am_our_dh mat = our /\ am_their_dh mat = gy.
Proof.
  unfold signature_result. intros H. bind_inv H. cbv zeta in H.
  apply bind_ok in H. destruct H as ([[[pk kid] sg'] r1] & _ & H). bind_inv H. bind_inv H. injection H as <-. auto.
Qed.

Lemma secure3_panic d e i their mat : am_their_dh mat <> 0 -> secure C d e i their (MatAKE mat) = Panic ->
  start3_peer (in_state i) \/ start3_chance C e (am_our_dh mat).
Proof.
  intros NZ. unfold secure. intros H.
  destruct (p_secure C (in_state i) (de_tag d) their (MatAKE mat) (ev_km0 e) (ev_km1 e)) as [s|x|] eqn:P; cbn [bind] in H.
  - exfalso. revert P H. unfold p_secure, enc3_new. destruct (in_state i); try discriminate;
      (destruct (km_new _ _ _ _ _ _ _); cbn [bind]; try discriminate; intros P; injection P as <-; discriminate).
  - discriminate.
  - clear H. unfold start3_peer, start3_chance.
    assert (K : enc3_new C (de_tag d) their mat (ev_km0 e) (ev_km1 e) = Panic \/ exists our their d smp, in_state i = PEnc4 our their d smp).
    { unfold p_secure in P. destruct (in_state i); eauto 6. }
    destruct K as [K|K]; [right|left; exact K]. unfold enc3_new in K.
    destruct (km_new C 1 _ 1 _ _ _) as [k|x|] eqn:N; cbn [bind] in K; try discriminate. clear K.
    unfold km_new in N. cbn [N.eqb orb Pos.eqb] in N. unfold kr_new in N. cbn [N.eqb Pos.eqb] in N.
    destruct (dh_verify_public_key C _) eqn:V; cbn [negb] in N; [|auto].
    destruct (dh_generate C (ev_km0 e)) as [k0|x|] eqn:G0; cbn [bind] in N; [|discriminate|apply generate_panic in G0; auto].
    destruct (dh_generate C (ev_km1 e)) as [k1|x|] eqn:G1; cbn [bind] in N; [|discriminate|apply generate_panic in G1; auto].
    unfold pr_new in N. cbn [N.eqb Pos.eqb] in N. apply N.eqb_neq in NZ. rewrite NZ in N. discriminate.
Qed.
Lemma secure4_ok d e i their mat : secure C d e i their (MatDAKE mat) = Ok (set_state i (enc4_new (de_tag d) their mat)).
Proof. unfold secure, p_secure. destruct (in_state i); reflexivity. Qed.
Lemma secure3_ok d e i their mat i' : secure C d e i their (MatAKE mat) = Ok i' ->
  exists k smp, i' = set_state i (PEnc3 (de_tag d) their k smp) /\ wf3 k /\ sm_status smp = SmpInitial /\ sm_state smp = Expect1.
Proof.
  unfold secure. intros H. bind_inv H. destruct (status_eqb _ _); [|discriminate]. injection H as <-.
  assert (K : enc3_new C (de_tag d) their mat (ev_km0 e) (ev_km1 e) = Ok x).
  { unfold p_secure in E. destruct (in_state i); (exact E || discriminate E). }
  unfold enc3_new in K. bind_inv K. injection K as <-. exists x0, (smp_new (am_ssid mat) (otr3_fingerprint C (am_their_dsa mat))).
  apply km_new_wf in E0. auto.
Qed.

(** ** OTRv4 *)

Definition dake_in (st : dake_state) : Prop :=
  match st with
  | DakeAwaitingAuthI w => pt_valid C (wi_ecdh0_other w) /\ pt_verify C (wi_ecdh0_other w) = true /\
      dh3_verify C (wi_dh0_other w) = true
  | _ => True
  end.

Lemma decode_profile_safe b : decode_profile C b <> Panic.
Proof.
  unfold decode_profile. apply bind_no_panic; [apply read_payload_safe|]. intros [p r] _. destruct r; discriminate.
Qed.
Lemma validate_keys_safe p y b e d : validate_keys C p y b e d <> Panic.
Proof.
  unfold validate_keys. apply bind_no_panic; [apply payload_validate_safe|]. intros cp _.
  destruct (pt_verify C y), (dh3_verify C b), (pt_verify C e), (dh3_verify C d); discriminate.
Qed.

Lemma answers_iff st m w : st = DakeAwaitingAuthR w -> (hashed_b C (id_b m) <? hashed_b C (id_b (wr_identity w))) = false -> answers4 C st m.
Proof. intros -> H. apply N.ltb_ge in H. exact H. Qed.

Lemma identity_panic e d st m st' : profile_in (id_profile m) -> pt_valid C (id_y m) -> pt_valid C (ed_public (ev_identity e)) ->
  dake_handle_identity C (ev_dake_host e) (ev_dake e) (ev_ring e) st m (de_account d) (de_address d) = (st', Panic) ->
  identity_peer C e st m \/ identity_chance C e d st m.
Proof.
  intros PF VY VI. unfold dake_handle_identity, identity_validate. cbv zeta.
  destruct (validate_keys C (id_profile m) _ _ _ _) as [bob|x|] eqn:V; intros H; [|discriminate|now apply validate_keys_safe in V].
  apply validate_keys_iff in V.
  assert (A : answers4 C st m /\ answer_identity C (ev_dake_host e) (ev_dake e) (ev_ring e) m bob (de_account d) (de_address d) = Panic).
  { destruct (answer_identity C (ev_dake_host e) (ev_dake e) (ev_ring e) m bob (de_account d) (de_address d)) as [[w r]|x|];
      destruct st as [|w0|w0]; try discriminate H; try (split; [exact I|reflexivity]);
      destruct (hashed_b C (id_b m) <? hashed_b C (id_b (wr_identity w0))) eqn:HB; try discriminate H.
    split; [eapply answers_iff; [reflexivity|exact HB]|reflexivity]. }
  destruct A as [AN A]. clear H. unfold answer_identity in A. cbv zeta in A. cbn [ev_dake_host dh_profile dh_identity] in A.
  unfold identity_peer, identity_chance.
  destruct (decode_profile C (ev_profile e)) as [own|x|] eqn:DP; cbn [bind] in A; [|discriminate|now apply decode_profile_safe in DP].
  destruct (ecdh_generate C (dn_ecdh (ev_dake e))) as [x|?|] eqn:X; cbn [bind] in A; [|discriminate|].
  2: { right. exists bob. split; [exact V|]. split; [exact AN|]. left. now apply ecdh_panic. }
  destruct (payload_validate C own) as [alice|?|] eqn:PV; cbn [bind] in A; [|discriminate|now apply payload_validate_safe in PV].
  destruct (ecdh_generate C (dn_ecdh0 (ev_dake e))) as [ecdh0|?|] eqn:X0; cbn [bind] in A; [|discriminate|].
  2: { right. exists bob. split; [exact V|]. split; [exact AN|]. right. left. now apply ecdh_panic. }
  apply payload_validate_iff in PV. pose proof (PF bob (proj1 V)) as VF.
  match type of A with bind (ring_sign C _ _ _ _ (?a ++ ?b) _) _ = _ =>
    set (txt := a ++ b) in A end.
  pose (v := mkView (write_payload (id_profile m)) (ev_profile e) (id_y m) (ec_public x) (id_b m)
            (dh3_public (dh3_generate C (dn_dh (ev_dake e)))) (cp_owner bob) (cp_owner alice) (id_ecdh0 m) (id_dh0 m) (ec_public ecdh0)
            (dh3_public (dh3_generate C (dn_dh0 (ev_dake e)))) (de_address d) (de_account d)).
  assert (TX : txt = auth_r_text C v) by (rewrite <- (auth_r_text_eq C v); reflexivity).
  destruct (ring_sign C _ _ _ _ _ _) as [sigma|?|] eqn:RS in A; cbn [bind] in A; [|discriminate|].
  - exfalso. destruct (mixed_new C x _ (id_y m) (id_b m)) as [sh|?|] eqn:MN in A; cbn [bind] in A; try discriminate.
    now apply (mixed_new_panic C GO) in MN.
  - clear A. apply (ring_sign_panic C GO) in RS; [|exact VF|exact VI|exact VY|cbn; auto].
    destruct RS as [RS|RS]; [left|right]; exists bob; (split; [exact V|]); (split; [exact AN|]); [exact RS|].
    right. right. exists own, alice, x, ecdh0. cbv zeta. rewrite TX in RS. auto 6.
Qed.

Lemma identity_in e d st m st' r : profile_in (id_profile m) -> pt_valid C (id_ecdh0 m) -> dake_in st ->
  dake_handle_identity C (ev_dake_host e) (ev_dake e) (ev_ring e) st m (de_account d) (de_address d) = (st', r) -> dake_in st'.
Proof.
  intros PF VY SI. unfold dake_handle_identity, identity_validate. cbv zeta.
  destruct (validate_keys C (id_profile m) _ _ _ _) as [bob|x|] eqn:V; intros H; [|congruence|congruence].
  apply validate_keys_iff in V. destruct V as (_ & _ & _ & V1 & V2).
  assert (K : st' = st \/ exists w r', answer_identity C (ev_dake_host e) (ev_dake e) (ev_ring e) m bob (de_account d) (de_address d) = Ok (w, r')
     /\ st' = DakeAwaitingAuthI w).
  { destruct (answer_identity C (ev_dake_host e) (ev_dake e) (ev_ring e) m bob (de_account d) (de_address d)) as [[w r']|x|];
      destruct st as [|w0|w0]; try (destruct (_ <? _) in H); try (left; congruence); right; exists w, r';
      (split; [reflexivity|congruence]). }
  destruct K as [->|(w & r' & A & ->)]; [exact SI|]. unfold answer_identity in A. cbv zeta in A. repeat bind_inv A.
  injection A as <- _. cbn [dake_in wi_ecdh0_other wi_dh0_other]. auto.
Qed.

Lemma auth_r_panic e d st m st' : profile_in (ar_profile m) -> pt_valid C (ar_x m) -> pt_valid C (ar_ecdh0 m) ->
  pt_valid C (ed_public (ev_identity e)) ->
  dake_handle_auth_r C (ev_dake_host e) (ev_ring e) (sr_ecdh (ev_send e)) (sr_dh (ev_send e)) (ev_now e) st m
    (de_account d) (de_address d) = (st', Panic) ->
  exists w, st = DakeAwaitingAuthR w /\ (authr_peer C e d w m \/ authr_chance C e d w m).
Proof.
  intros PF VX VE VI. unfold dake_handle_auth_r. destruct st as [|w|w]; try discriminate. intros H. exists w. split; [reflexivity|].
  match type of H with match ?x with _ => _ end = _ => assert (A : x = Panic) by (destruct x; [discriminate H|discriminate H|reflexivity]) end.
  clear H. cbv zeta in A. unfold authr_validate in A. cbn [ev_dake_host dh_identity] in A.
  destruct (validate_keys C (ar_profile m) _ _ _ _) as [alice|x|] eqn:V; cbn [bind] in A; [|discriminate|now apply validate_keys_safe in V].
  destruct (payload_validate C (wr_payload w)) as [bob|?|] eqn:PV; cbn [bind] in A; [|discriminate|now apply payload_validate_safe in PV].
  apply payload_validate_iff in PV. apply validate_keys_iff in V. pose proof (PF alice (proj1 V)) as VF.
  pose (v := bob_view w m bob alice (de_account d) (de_address d)).
  match type of A with bind (ring_validate C _ _ _ _ ?t) _ = _ => replace t with (auth_r_text C v) in A by (rewrite <- (auth_r_text_eq C v); reflexivity) end.
  destruct (ring_validate C _ _ _ _ _) as [[]|?|] eqn:RV in A; cbn [bind] in A; [|discriminate|].
  2: { apply (ring_validate_panic C GO) in RV. destruct RV as [RV|RV]; [left|right]; exists bob, alice; (split; [split; assumption|]); cbv zeta; auto. }
  apply (ring_validate_iff C (cr_CO C GO)) in RV.
  match type of A with bind (ring_sign C _ _ _ _ ?t _) _ = _ => replace t with (auth_i_text C v) in A by (rewrite <- (auth_i_text_eq C v); reflexivity) end.
  destruct (ring_sign C _ _ _ _ _ _) as [sigma|?|] eqn:RS in A; cbn [bind] in A; [|discriminate|].
  2: { apply (ring_sign_panic C GO) in RS; [|exact VI|exact VF|exact VX|cbn; auto].
       destruct RS as [RS|RS]; [left|right]; exists bob, alice; (split; [split; assumption|]); cbv zeta; auto. }
  destruct (mixed_new C (wr_y w) _ _ _) as [s1|?|] eqn:M1 in A; cbn [bind] in A; [|discriminate|now apply (mixed_new_panic C GO) in M1].
  destruct (mixed_new C (wr_ecdh0 w) _ _ _) as [s2|?|] eqn:M2 in A; cbn [bind] in A; [|discriminate|now apply (mixed_new_panic C GO) in M2].
  destruct (dr_rotate_sender C _ _ _ _) as [dr|?|] eqn:RT in A; cbn [bind] in A; [discriminate|discriminate|]. clear A.
  unfold mixed_new in M2. apply mixed_next_ok in M2. destruct M2 as (P1 & P2 & _ & _ & E1 & E2 & _).
  right. exists bob, alice. split; [split; assumption|]. cbv zeta. right. right.
  apply (rotate_sender_panic C GO) in RT; cbn [dr_initialize dr_shared dr_next dr_i]; rewrite ?E1, ?E2; try assumption; [|reflexivity].
  cbn [dr_initialize dr_shared dr_next dr_i] in RT. destruct RT as [RT|[[RT _]|RT]]; [exact RT|now elim RT|discriminate RT].
Qed.

Lemma auth_r_ok4 e d st m st' mat r : pt_valid C (ar_ecdh0 m) ->
  dake_handle_auth_r C (ev_dake_host e) (ev_ring e) (sr_ecdh (ev_send e)) (sr_dh (ev_send e)) (ev_now e) st m
    (de_account d) (de_address d) = (st', Ok (mat, r)) -> ok4 C (dm_ratchet mat).
Proof.
  intros VE. unfold dake_handle_auth_r. destruct st as [|w|w]; try discriminate.
  match goal with |- match ?x with _ => _ end = _ -> _ => destruct x as [[mat' r']|?|] eqn:A; try discriminate end.
  intros H. assert (Q : mat' = mat) by congruence. subst mat'. clear H. cbv zeta in A. repeat bind_inv A. injection A as <- _.
  cbn [dm_ratchet].
  match goal with M : mixed_new C (wr_ecdh0 w) _ _ _ = Ok ?s |- _ =>
    unfold mixed_new in M; apply mixed_next_ok in M; destruct M as (P1 & P2 & _ & _ & E1' & E2' & _) end.
  match goal with R : dr_rotate_sender C _ _ _ _ = Ok _ |- _ => apply rotate_sender_ok in R; destruct R as (ec & sh & _ & _ & M & -> & _) end.
  apply mixed_next_ok in M. destruct M as (Q1 & Q2 & _ & _ & Q3 & Q4 & _).
  cbn [dr_initialize dr_shared] in *. constructor; cbn; rewrite ?Q3, ?Q4, ?E1', ?E2'; try assumption; try reflexivity; [discriminate|].
  intros _. right. lia.
Qed.

Lemma auth_i_panic now d st m : dake_in st ->
  forall st', dake_handle_auth_i C now st m (de_account d) (de_address d) = (st', Panic) ->
  exists w, st = DakeAwaitingAuthI w /\ (ring_peer C (ai_sigma m) \/ authi_chance C d w m).
Proof.
  intros DI st'. unfold dake_handle_auth_i. destruct st as [|w|w]; try discriminate. intros H. exists w. split; [reflexivity|].
  apply (f_equal snd) in H. cbn [snd] in H. cbv zeta in H. destruct DI as (D1 & D2 & D3).
  destruct (payload_validate C (wi_profile_alice w)) as [alice|?|] eqn:PA; cbn [bind] in H; [|discriminate|now apply payload_validate_safe in PA].
  destruct (payload_validate C (wi_profile_bob w)) as [bob|?|] eqn:PB; cbn [bind] in H; [|discriminate|now apply payload_validate_safe in PB].
  pose (v := alice_view w bob alice (de_account d) (de_address d)).
  match type of H with bind (ring_validate C _ _ _ _ ?t) _ = _ => replace t with (auth_i_text C v) in H by (rewrite <- (auth_i_text_eq C v); reflexivity) end.
  apply payload_validate_iff in PA, PB.
  destruct (ring_validate C _ _ _ _ _) as [[]|?|] eqn:RV in H; cbn [bind] in H; [|discriminate|].
  2: { apply (ring_validate_panic C GO) in RV. destruct RV as [RV|RV]; [left; exact RV|right]. exists bob, alice. auto. }
  destruct (mixed_new C (wi_ecdh0 w) _ _ _) as [s2|?|] eqn:M2 in H; cbn [bind] in H; [|discriminate|now apply (mixed_new_panic C GO) in M2].
  discriminate.
Qed.
Lemma auth_i_ok4 now d st m st' mat : dake_in st ->
  dake_handle_auth_i C now st m (de_account d) (de_address d) = (st', Ok mat) -> ok4 C (dm_ratchet mat).
Proof.
  intros DI. unfold dake_handle_auth_i. destruct st as [|w|w]; try discriminate. intros H. destruct DI as (D1 & D2 & D3).
  apply (f_equal snd) in H. cbn [snd] in H. cbv zeta in H. repeat bind_inv H. injection H as <-. cbn [dm_ratchet].
  match goal with M : mixed_new C (wi_ecdh0 w) _ _ _ = Ok ?s |- _ =>
    unfold mixed_new in M; apply mixed_next_ok in M; destruct M as (P1 & P2 & _ & _ & E1' & E2' & _) end.
  constructor; cbn; rewrite ?E1', ?E2'; try assumption; try reflexivity; [discriminate|]. intros _. right. lia.
Qed.

Lemma dake_initiate_panic h rnd st st' : dake_initiate C h rnd st = (st', Panic) ->
  bad_seed C (dn_ecdh rnd) \/ bad_seed C (dn_ecdh0 rnd).
Proof.
  unfold dake_initiate. destruct st as [|w|w]; try discriminate.
  match goal with |- match ?x with _ => _ end = _ -> _ => destruct x eqn:A; try discriminate end. intros _.
  destruct (decode_profile C (dh_profile h)) as [own|x|] eqn:DP; cbn [bind] in A; [|discriminate|now apply decode_profile_safe in DP].
  destruct (ecdh_generate C (dn_ecdh rnd)) as [x|?|] eqn:X; cbn [bind] in A; [|discriminate|left; now apply ecdh_panic].
  destruct (ecdh_generate C (dn_ecdh0 rnd)) as [x0|?|] eqn:X0; cbn [bind] in A; [discriminate|discriminate|right; now apply ecdh_panic].
Qed.

End WithCrypto.
