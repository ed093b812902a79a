(* Signatures and authenticators are about one exchange, one message. *)
From Verif Require Import Base BaseLemmas Types Crypto CryptoProofs Encoding EncodingProofs Base64 ClientProfile Messages MessagesProofs Ratchet AKEConvProofs DAKE Protocol Session
  SpecCurve SpecWire SpecData3 SpecData4 SpecAKE SpecDAKE SpecSession SpecOrigin FollowProofs SessionLemmas OriginProofs SpecBind.
From Coq Require Import Lia.
Local Open Scope N_scope.

Lemma app_inj_len {A} (a b c d : list A) : length a = length c -> a ++ b = c ++ d -> a = c /\ b = d.
Proof.
  revert c. induction a as [|x a IH]; intros [|y c] L E; try discriminate; [auto|]. cbn in L, E. injection L as L. injection E as -> E.
  destruct (IH c L E) as [-> ->]. auto.
Qed.
Lemma data_inj a b r1 r2 : fits32 a -> fits32 b -> write_data a ++ r1 = write_data b ++ r2 -> a = b /\ r1 = r2.
Proof.
  intros A B E. unfold write_data in E. rewrite <- !app_assoc in E.
  apply app_inj_len in E; [|unfold write_u32; now rewrite !be_bytes_length]. destruct E as [L E]. apply app_inj_len in E; [assumption|].
  unfold write_u32 in L. apply (f_equal be_val) in L. rewrite !be_val_be_bytes in L. unfold fits32 in *.
  change (256 ^ N.of_nat 4) with 4294967296 in L. rewrite !N.mod_small in L by assumption. lia.
Qed.
Lemma data_last a b : write_data a = write_data b -> a = b.
Proof. intros E. unfold write_data in E. apply app_inj_len in E; [|unfold write_u32; now rewrite !be_bytes_length]. tauto. Qed.
Lemma u32_split a b r1 r2 : write_u32 a ++ r1 = write_u32 b ++ r2 -> write_u32 a = write_u32 b /\ r1 = r2.
Proof. apply app_inj_len. unfold write_u32. now rewrite !be_bytes_length. Qed.
Lemma point_split a b r1 r2 : pt_encode a ++ r1 = pt_encode b ++ r2 -> pt_encode a = pt_encode b /\ r1 = r2.
Proof. apply app_inj_len. now rewrite !pt_encode_length. Qed.

Section WithCrypto.
Context (C : Crypto).

Lemma kdf_split n u u' a b r1 r2 : kdf C n u a ++ r1 = kdf C n u' b ++ r2 -> kdf C n u a = kdf C n u' b /\ r1 = r2.
Proof. apply app_inj_len. now rewrite !kdf_length. Qed.
Lemma bytes_dec (a b : bytes) : a = b \/ a <> b.
Proof. destruct (bytes_eqb a b) eqn:E; [left|right]; [now apply bytes_eqb_eq|]. intros ->. rewrite (proj2 (bytes_eqb_eq b b) eq_refl) in E. discriminate. Qed.

Lemma ring_binds sg A1 A2 A3 m B1 B2 B3 n : ring_valid C sg A1 A2 A3 m -> ring_valid C sg B1 B2 B3 n ->
  (pt_encode A1 = pt_encode B1 /\ pt_encode A2 = pt_encode B2 /\ pt_encode A3 = pt_encode B3 /\ m = n) \/
  clash (challenge C) (ring_text C sg A1 A2 A3 m) (ring_text C sg B1 B2 B3 n).
Proof.
  intros [V _] [V' _]. assert (E : challenge C (ring_text C sg A1 A2 A3 m) = challenge C (ring_text C sg B1 B2 B3 n)).
  { unfold challenge, ring_text. rewrite V, V'. reflexivity. }
  clear V V'. destruct (bytes_dec (ring_text C sg A1 A2 A3 m) (ring_text C sg B1 B2 B3 n)) as [X|X]; [left|right; split; assumption].
  clear E. unfold ring_text in X. apply app_inv_head in X. apply app_inv_head in X.
  apply point_split in X. destruct X as [E1 X]. apply point_split in X. destruct X as [E2 X]. apply point_split in X. destruct X as [E3 X].
  apply point_split in X. destruct X as [_ X]. apply point_split in X. destruct X as [_ X]. apply point_split in X. destruct X as [_ X].
  apply data_last in X. auto.
Qed.

(* what the numbers in a view must be like *)
Definition view_fits (v : dake_view) : Prop :=
  mpi_range (vw_b v) /\ mpi_range (vw_a v) /\ mpi_range (vw_bob_dh0 v) /\ mpi_range (vw_alice_dh0 v) /\ fits32 (vw_bob_name v) /\ fits32 (vw_alice_name v).
Definition same_view (v v' : dake_view) : Prop :=
  vw_bob v = vw_bob v' /\ vw_alice v = vw_alice v' /\ pt_encode (vw_y v) = pt_encode (vw_y v') /\ pt_encode (vw_x v) = pt_encode (vw_x v') /\
  vw_b v = vw_b v' /\ vw_a v = vw_a v' /\ pt_encode (vw_bob_ecdh0 v) = pt_encode (vw_bob_ecdh0 v') /\ vw_bob_dh0 v = vw_bob_dh0 v' /\
  pt_encode (vw_alice_ecdh0 v) = pt_encode (vw_alice_ecdh0 v') /\ vw_alice_dh0 v = vw_alice_dh0 v' /\
  vw_bob_name v = vw_bob_name v' /\ vw_alice_name v = vw_alice_name v'.

Lemma keys_split v v' r1 r2 : view_fits v -> view_fits v' -> dake_keys_text v ++ r1 = dake_keys_text v' ++ r2 ->
  (pt_encode (vw_y v) = pt_encode (vw_y v') /\ pt_encode (vw_x v) = pt_encode (vw_x v') /\ vw_b v = vw_b v' /\ vw_a v = vw_a v') /\ r1 = r2.
Proof.
  intros (F1 & F2 & _) (G1 & G2 & _) E. unfold dake_keys_text in E. rewrite <- !app_assoc in E. unfold write_ed448_point in E.
  apply point_split in E. destruct E as [E1 E]. apply point_split in E. destruct E as [E2 E].
  apply write_mpi_prefix_free in E; [|assumption..]. destruct E as [E3 E].
  apply write_mpi_prefix_free in E; [|assumption..]. destruct E as [E4 E]. auto.
Qed.
Lemma half_split e d e' d' r1 r2 : mpi_range d -> mpi_range d' -> half_phi e d ++ r1 = half_phi e' d' ++ r2 ->
  pt_encode e = pt_encode e' /\ d = d' /\ r1 = r2.
Proof.
  intros D D' E. unfold half_phi in E. rewrite <- !app_assoc in E. unfold write_ed448_point in E.
  apply point_split in E. destruct E as [E1 E]. apply write_mpi_prefix_free in E; [|assumption..]. tauto.
Qed.

Lemma auth_r_binds v v' : view_fits v -> view_fits v' -> auth_r_text C v = auth_r_text C v' -> same_view v v' \/
  clash (kdf C 64 x05) (vw_bob v) (vw_bob v') \/ clash (kdf C 64 x06) (vw_alice v) (vw_alice v') \/ clash (kdf C 64 x07) (phi_r v) (phi_r v').
Proof.
  intros F F' E. unfold auth_r_text in E. apply app_inv_head in E.
  apply kdf_split in E. destruct E as [E1 E]. apply kdf_split in E. destruct E as [E2 E].
  apply keys_split in E; [|assumption..]. destruct E as [(K1 & K2 & K3 & K4) E]. fold (phi_r v) (phi_r v') in E.
  unfold clash. destruct (bytes_dec (vw_bob v) (vw_bob v')) as [B|B]; [|auto].
  destruct (bytes_dec (vw_alice v) (vw_alice v')) as [A|A]; [|auto 6].
  destruct (bytes_dec (phi_r v) (phi_r v')) as [P|P]; [|auto 7]. left.
  destruct F as (_ & _ & F3 & F4 & F5 & F6), F' as (_ & _ & G3 & G4 & G5 & G6).
  unfold phi_r in P. apply u32_split in P. destruct P as [_ P]. apply u32_split in P. destruct P as [_ P].
  apply half_split in P; [|assumption..]. destruct P as (P1 & P2 & P). apply half_split in P; [|assumption..]. destruct P as (P3 & P4 & P).
  apply data_inj in P; [|assumption..]. destruct P as [P5 P]. apply data_last in P. unfold same_view. tauto.
Qed.
Lemma auth_i_binds v v' : view_fits v -> view_fits v' -> auth_i_text C v = auth_i_text C v' -> same_view v v' \/
  clash (kdf C 64 x08) (vw_bob v) (vw_bob v') \/ clash (kdf C 64 x09) (vw_alice v) (vw_alice v') \/ clash (kdf C 64 x0a) (phi_i v) (phi_i v').
Proof.
  intros F F' E. unfold auth_i_text in E. apply app_inv_head in E.
  apply kdf_split in E. destruct E as [E1 E]. apply kdf_split in E. destruct E as [E2 E].
  apply keys_split in E; [|assumption..]. destruct E as [(K1 & K2 & K3 & K4) E]. fold (phi_i v) (phi_i v') in E.
  unfold clash. destruct (bytes_dec (vw_bob v) (vw_bob v')) as [B|B]; [|auto].
  destruct (bytes_dec (vw_alice v) (vw_alice v')) as [A|A]; [|auto 6].
  destruct (bytes_dec (phi_i v) (phi_i v')) as [P|P]; [|auto 7]. left.
  destruct F as (_ & _ & F3 & F4 & F5 & F6), F' as (_ & _ & G3 & G4 & G5 & G6).
  unfold phi_i in P. apply u32_split in P. destruct P as [_ P]. apply u32_split in P. destruct P as [_ P].
  apply half_split in P; [|assumption..]. destruct P as (P1 & P2 & P). apply half_split in P; [|assumption..]. destruct P as (P3 & P4 & P).
  apply data_inj in P; [|assumption..]. destruct P as [P5 P]. apply data_last in P. unfold same_view. tauto.
Qed.
Lemma texts_differ v v' : auth_r_text C v <> auth_i_text C v'.
Proof. discriminate. Qed.

(** ** Sessions *)

Context (CO : curve_ok C) (GP : 0 < c_dh_g C) (PP : 0 < c_dh3_p C) (PR : mpi_range (c_dh3_p C)).

Lemma own_range x : mpi_range (dh3_key C x).
Proof. apply mpi_range_le with (c_dh3_p C); [|exact PR]. apply N.lt_le_incl, modpow_lt. lia. Qed.
Lemma verified_range v : dh3_verify C v = true -> mpi_range v.
Proof.
  unfold dh3_verify. intros H. apply negb_true_iff, orb_false_iff in H. destruct H as [H _]. apply orb_false_iff in H. destruct H as [_ H].
  apply N.ltb_ge in H. apply mpi_range_le with (c_dh3_p C); [lia|exact PR].
Qed.
Lemma begun_proven d h em t : begun C d h em t -> exists st, proven C d h t em st.
Proof.
  intros (s & es & p & s' & out & HI & CA & H). destruct (start_proven C d CO GP h s es p s' out t HI H) as (em' & CA' & _ & _ & _ & P).
  rewrite (carries_fun C _ _ _ _ CA CA') in P. eauto.
Qed.
Lemma begun_r d h em t m : begun C d h em t -> em_message em = MAuthR m -> names_fit d ->
  exists i bob alice, has_offered d h t V4 (MIdentity i) /\ profiles C i m bob alice /\
    view_fits (message_view i m bob alice (de_account d) (de_address d)) /\
    ring_valid C (ar_sigma m) (cp_forging bob) (cp_identity alice) (id_y i) (auth_r_text C (message_view i m bob alice (de_account d) (de_address d))).
Proof.
  intros B M [N1 N2]. apply begun_proven in B. destruct B as (st & [(_ & [P|P])|(_ & [P|P])]).
  - destruct P as (c & y & m' & gx & more & rest & pk & E & _). congruence.
  - destruct P as (x & r & gy & rv & m' & pk & E & _). congruence.
  - destruct P as (i & m' & bob & alice & y & b & e0 & d0 & now & r0 & er & dr & r & E & O & K1 & K2 & K3 & K4 & PA & OK & RV & _).
    assert (m' = m) as -> by congruence. exists i, bob, alice. split; [assumption|]. split; [split; [assumption|apply OK]|]. split; [|assumption].
    destruct OK as (_ & _ & O1 & _ & O2). unfold view_fits, message_view.
    cbn [vw_b vw_a vw_bob_dh0 vw_alice_dh0 vw_bob_name vw_alice_name]. rewrite K2, K4.
    repeat split; auto using own_range, verified_range.
  - destruct P as (i & m' & a & bob & alice & x & av & e0 & d0 & now & r & E & _). congruence.
Qed.
Lemma begun_i d h em t a : begun C d h em t -> em_message em = MAuthI a -> names_fit d ->
  exists i m bob alice, has_got C d h t V4 (MIdentity i) /\ has_sent d h t V4 (MAuthR m) /\ profiles C i m bob alice /\
    view_fits (message_view i m bob alice (de_address d) (de_account d)) /\
    ring_valid C (ai_sigma a) (cp_identity bob) (cp_forging alice) (ar_x m) (auth_i_text C (message_view i m bob alice (de_address d) (de_account d))).
Proof.
  intros B M [N1 N2]. apply begun_proven in B. destruct B as (st & [(_ & [P|P])|(_ & [P|P])]).
  - destruct P as (c & y & m' & gx & more & rest & pk & E & _). congruence.
  - destruct P as (x & r & gy & rv & m' & pk & E & _). congruence.
  - destruct P as (i & m' & bob & alice & y & b & e0 & d0 & now & r0 & er & dr & r & E & _). congruence.
  - destruct P as (i & m & a' & bob & alice & x & av & e0 & d0 & now & r & E & G & S & K1 & K2 & K3 & K4 & PA & OK & RV & _).
    assert (a' = a) as -> by congruence. exists i, m, bob, alice. split; [assumption|]. split; [assumption|]. split; [split; [apply OK|assumption]|]. split; [|assumption].
    destruct OK as (_ & _ & O1 & _ & O2). unfold view_fits, message_view.
    cbn [vw_b vw_a vw_bob_dh0 vw_alice_dh0 vw_bob_name vw_alice_name]. rewrite K2, K4.
    repeat split; auto using own_range, verified_range.
Qed.

Theorem one_exchange_r d h em t m d' h' em' t' m' : names_fit d -> names_fit d' ->
  begun C d h em t -> em_message em = MAuthR m -> begun C d' h' em' t' -> em_message em' = MAuthR m' -> ar_sigma m = ar_sigma m' ->
  exists i bob alice i' bob' alice', has_offered d h t V4 (MIdentity i) /\ profiles C i m bob alice /\
    has_offered d' h' t' V4 (MIdentity i') /\ profiles C i' m' bob' alice' /\
    (same_exchange i m i' m' /\ same_names d d' \/
     broken_r C (ar_sigma m) bob alice (message_view i m bob alice (de_account d) (de_address d))
                             bob' alice' (message_view i' m' bob' alice' (de_account d') (de_address d'))).
Proof.
  intros N N' B M B' M' S. destruct (begun_r d h em t m B M N) as (i & bob & alice & O & P & F & V).
  destruct (begun_r d' h' em' t' m' B' M' N') as (i' & bob' & alice' & O' & P' & F' & V'). rewrite <- S in V'.
  exists i, bob, alice, i', bob', alice'. split; [exact O|]. split; [exact P|]. split; [exact O'|]. split; [exact P'|]. unfold broken_r.
  destruct (ring_binds _ _ _ _ _ _ _ _ _ V V') as [(_ & _ & _ & T)|X]; [|right; right; right; right; exact X].
  destruct (auth_r_binds _ _ F F' T) as [X|[X|[X|X]]]; [left|right; auto..].
  unfold same_view, message_view in X. cbn in X. unfold same_exchange, same_names. tauto.
Qed.
Theorem one_exchange_i d h em t a d' h' em' t' a' : names_fit d -> names_fit d' ->
  begun C d h em t -> em_message em = MAuthI a -> begun C d' h' em' t' -> em_message em' = MAuthI a' -> ai_sigma a = ai_sigma a' ->
  exists i m bob alice i' m' bob' alice', has_got C d h t V4 (MIdentity i) /\ has_sent d h t V4 (MAuthR m) /\ profiles C i m bob alice /\
    has_got C d' h' t' V4 (MIdentity i') /\ has_sent d' h' t' V4 (MAuthR m') /\ profiles C i' m' bob' alice' /\
    (same_exchange i m i' m' /\ same_names d d' \/
     broken_i C (ai_sigma a) bob alice (message_view i m bob alice (de_address d) (de_account d))
                             bob' alice' (message_view i' m' bob' alice' (de_address d') (de_account d'))).
Proof.
  intros N N' B M B' M' S. destruct (begun_i d h em t a B M N) as (i & m & bob & alice & G & O & P & F & V).
  destruct (begun_i d' h' em' t' a' B' M' N') as (i' & m' & bob' & alice' & G' & O' & P' & F' & V'). rewrite <- S in V'.
  exists i, m, bob, alice, i', m', bob', alice'. split; [exact G|]. split; [exact O|]. split; [exact P|]. split; [exact G'|]. split; [exact O'|].
  split; [exact P'|]. unfold broken_i.
  destruct (ring_binds _ _ _ _ _ _ _ _ _ V V') as [(_ & _ & _ & T)|X]; [|right; right; right; right; exact X].
  destruct (auth_i_binds _ _ F F' T) as [X|[X|[X|X]]]; [left|right; auto..].
  unfold same_view, message_view in X. cbn in X. unfold same_exchange, same_names. tauto.
Qed.
(* An Auth-R message is no Auth-I message of another exchange. *)
Theorem one_role d h em t m d' h' em' t' a : names_fit d -> names_fit d' ->
  begun C d h em t -> em_message em = MAuthR m -> begun C d' h' em' t' -> em_message em' = MAuthI a -> ar_sigma m = ai_sigma a ->
  exists i bob alice i' m' bob' alice', has_offered d h t V4 (MIdentity i) /\ profiles C i m bob alice /\
    has_got C d' h' t' V4 (MIdentity i') /\ has_sent d' h' t' V4 (MAuthR m') /\ profiles C i' m' bob' alice' /\
    clash (challenge C)
      (ring_text C (ar_sigma m) (cp_forging bob) (cp_identity alice) (id_y i)
         (auth_r_text C (message_view i m bob alice (de_account d) (de_address d))))
      (ring_text C (ar_sigma m) (cp_identity bob') (cp_forging alice') (ar_x m')
         (auth_i_text C (message_view i' m' bob' alice' (de_address d') (de_account d')))).
Proof.
  intros N N' B M B' M' S. destruct (begun_r d h em t m B M N) as (i & bob & alice & O & P & F & V).
  destruct (begun_i d' h' em' t' a B' M' N') as (i' & m' & bob' & alice' & G' & O' & P' & F' & V'). rewrite <- S in V'.
  exists i, bob, alice, i', m', bob', alice'. split; [exact O|]. split; [exact P|]. split; [exact G'|]. split; [exact O'|]. split; [exact P'|].
  destruct (ring_binds _ _ _ _ _ _ _ _ _ V V') as [(_ & _ & _ & T)|X]; [|exact X].
  now apply texts_differ in T.
Qed.
End WithCrypto.

(** ** Data messages *)

Section Data.
Context (C : Crypto).

Lemma u32_inj a b r1 r2 : a < 4294967296 -> b < 4294967296 -> write_u32 a ++ r1 = write_u32 b ++ r2 -> a = b /\ r1 = r2.
Proof.
  intros A B E. apply u32_split in E as [E ->]. split; [|reflexivity]. unfold write_u32 in E. apply (f_equal be_val) in E.
  rewrite !be_val_be_bytes in E. change (256 ^ N.of_nat 4) with 4294967296 in E. rewrite !N.mod_small in E by assumption. exact E.
Qed.
Lemma flag_inj a b r1 r2 : write_u8 (flags_byte a) ++ r1 = write_u8 (flags_byte b) ++ r2 -> a = b /\ r1 = r2.
Proof. destruct a, b; cbn; intros E; try discriminate; injection E as E; auto. Qed.

Lemma tag_bound t : SpecWire.legal_tag t -> t < 4294967296.
Proof. unfold SpecWire.legal_tag. lia. Qed.
Lemma parse_read b em : parse C b = Ok (MsgEncoded em) -> exists buf t rest r,
  SpecWire.legal_tag (em_sender em) /\ SpecWire.legal_tag (em_receiver em) /\ read_content C (em_version em) t buf = Ok (em_message em, rest) /\ r = rest.
Proof.
  intros H. unfold parse in H. destruct (_ && _).
  - unfold parse_encoded_message in H. destruct (b64_decode _); [|discriminate]. bind_inv H. injection H as <-.
    unfold read_encoded_message in E. repeat bind_inv E. injection E as <- <-. cbn.
    apply read_instance_tag_exact in E3, E4. do 4 eexists. split; [apply E3|]. split; [apply E4|]. split; [eassumption|reflexivity].
  - exfalso. unfold parse_plain_message in H.
    destruct (starts_with _ _); [discriminate|]. destruct (find_query b) as [[g|]|]; try discriminate.
    destruct (find_tag b) as [[[? gs] ?]|]; [|discriminate]. destruct (rev gs); discriminate.
Qed.
Lemma read3 v t buf m rest : read_content C v t buf = Ok (MData m, rest) ->
  v = V3 /\ d3_sender_keyid m < 4294967296 /\ d3_receiver_keyid m < 4294967296 /\ mpi_range (d3_dh_y m) /\ length (d3_ctr m) = CTR_LEN /\ fits32 (d3_encrypted m).
Proof.
  intros H. unfold read_content in H.
  destruct v; try discriminate; repeat match type of H with (if ?c then _ else _) = _ => destruct c end; try discriminate;
    apply map_fst_ok in H as (a & H & X); try discriminate. injection X as <-. unfold read_data3 in H. repeat bind_inv H. injection H as <- <-. cbn.
  apply read_keyid_exact in E0, E1. apply read_mpi_range in E2. apply read_fixed_exact in E3. apply read_data_exact in E4.
  unfold fits32, keyid_range in *. intuition.
Qed.
Lemma read4 v t buf m rest : read_content C v t buf = Ok (MData4 m, rest) ->
  v = V4 /\ d4_pn m < 4294967296 /\ d4_i m < 4294967296 /\ d4_j m < 4294967296 /\
  (match d4_dh m with Some x => x <> 0 /\ mpi_range x | None => True end) /\ fits32 (d4_encrypted m).
Proof.
  intros H. unfold read_content in H.
  destruct v; try discriminate; repeat match type of H with (if ?c then _ else _) = _ => destruct c end; try discriminate;
    apply map_fst_ok in H as (a & H & X); try discriminate. injection X as <-. unfold read_data4 in H. repeat bind_inv H. injection H as <- <-. cbn.
  apply read_u32_exact in E0, E1, E2. apply read_mpi_range in E4. apply read_data_exact in E5.
  unfold fits32 in *. intuition.
  match goal with |- context [if ?c then None else _] => destruct c eqn:Z end; [exact I|]. apply N.eqb_neq in Z. auto.
Qed.

Lemma data3_text s r m s' r' m' : s < 4294967296 -> r < 4294967296 -> s' < 4294967296 -> r' < 4294967296 ->
  d3_sender_keyid m < 4294967296 -> d3_receiver_keyid m < 4294967296 -> mpi_range (d3_dh_y m) -> length (d3_ctr m) = CTR_LEN ->
  d3_sender_keyid m' < 4294967296 -> d3_receiver_keyid m' < 4294967296 -> mpi_range (d3_dh_y m') -> length (d3_ctr m') = CTR_LEN ->
  encode_authenticator_data s r m = encode_authenticator_data s' r' m' -> s = s' /\ r = r' /\ same_data3 m m'.
Proof.
  intros A1 A2 A3 A4 M1 M2 M3 M4 N1 N2 N3 N4 E. unfold encode_authenticator_data in E. apply app_inv_head in E. apply app_inv_head in E.
  apply u32_inj in E; [|assumption..]. destruct E as [-> E]. apply u32_inj in E; [|assumption..]. destruct E as [-> E].
  apply flag_inj in E. destruct E as [E1 E]. apply u32_inj in E; [|assumption..]. destruct E as [E2 E].
  apply u32_inj in E; [|assumption..]. destruct E as [E3 E]. apply write_mpi_prefix_free in E; [|assumption..]. destruct E as [E4 E].
  apply app_inj_len in E; [|congruence]. destruct E as [E5 E]. apply data_last in E. unfold same_data3. auto 10.
Qed.
Lemma data4_text s r m s' r' m' : s < 4294967296 -> r < 4294967296 -> s' < 4294967296 -> r' < 4294967296 ->
  d4_pn m < 4294967296 -> d4_i m < 4294967296 -> d4_j m < 4294967296 -> (match d4_dh m with Some x => x <> 0 /\ mpi_range x | None => True end) ->
  d4_pn m' < 4294967296 -> d4_i m' < 4294967296 -> d4_j m' < 4294967296 -> (match d4_dh m' with Some x => x <> 0 /\ mpi_range x | None => True end) ->
  encode_authenticator_data4 s r m = encode_authenticator_data4 s' r' m' -> s = s' /\ r = r' /\ same_data4 m m'.
Proof.
  intros A1 A2 A3 A4 M1 M2 M3 M4 N1 N2 N3 N4 E. unfold encode_authenticator_data4 in E. apply app_inv_head in E. apply app_inv_head in E.
  apply u32_inj in E; [|assumption..]. destruct E as [-> E]. apply u32_inj in E; [|assumption..]. destruct E as [-> E].
  apply flag_inj in E. destruct E as [E1 E]. apply u32_inj in E; [|assumption..]. destruct E as [E2 E].
  apply u32_inj in E; [|assumption..]. destruct E as [E3 E]. apply u32_inj in E; [|assumption..]. destruct E as [E4 E].
  unfold write_ed448_point in E. apply point_split in E. destruct E as [E5 E].
  assert (Z : mpi_range 0) by (vm_compute; reflexivity).
  apply write_mpi_prefix_free in E.
  - destruct E as [E6 E]. apply data_last in E. unfold same_data4. repeat (split; [auto; fail|]). split; [|assumption].
    destruct (d4_dh m), (d4_dh m'); cbn [dh_or_zero] in E6; try reflexivity; [now rewrite E6|exfalso; tauto|exfalso; subst; tauto].
  - destruct (d4_dh m); [apply M4|exact Z].
  - destruct (d4_dh m'); [apply N4|exact Z].
Qed.

Lemma delivered_opens d st em t : enabled d -> delivered C d st em t ->
  (exists b, parse C b = Ok (MsgEncoded em)) /\ exists text, opens C st em text.
Proof.
  intros EN (h & s & e & p & s' & out & r & HI & -> & CA & H & RR).
  destruct (confidential C d h s e p s' out r t HI EN H RR) as (em' & text & CA' & _ & _ & _ & O & _).
  rewrite <- (carries_fun C _ _ _ _ CA CA') in *. destruct CA' as (b & _ & P). eauto.
Qed.

Lemma pair_dec (a b : bytes * bytes) : a = b \/ a <> b.
Proof.
  destruct a as [a1 a2], b as [b1 b2]. destruct (bytes_dec a1 b1) as [->|N]; [|right; congruence].
  destruct (bytes_dec a2 b2) as [->|N]; [left; reflexivity|right; congruence].
Qed.

Theorem one_message3 d st em t m d' st' em' t' m' : enabled d -> enabled d' -> delivered C d st em t -> delivered C d' st' em' t' ->
  em_message em = MData m -> em_message em' = MData m' -> d3_authenticator m = d3_authenticator m' ->
  exists key key', mac_key_of C st em key /\ mac_key_of C st' em' key' /\
    (key = key' /\ same_header em em' /\ same_data3 m m' \/
     clash (fun x => hmac_sha1 C (fst x) (snd x)) (key, encode_authenticator_data (em_sender em) (em_receiver em) m)
       (key', encode_authenticator_data (em_sender em') (em_receiver em') m')).
Proof.
  intros EN EN' D D' M M' A. apply delivered_opens in D, D'; try assumption. destruct D as [(b & P) (text & O)], D' as [(b' & P') (text' & O')].
  unfold opens in O, O'. unfold mac_key_of. rewrite M in O. rewrite M' in O'. rewrite M, M'.
  destruct st; try contradiction. destruct st'; try contradiction.
  destruct O as (_ & x & y & ek & mk & O1 & O2 & O3 & O4 & _). destruct O' as (_ & x' & y' & ek' & mk' & O1' & O2' & O3' & O4' & _).
  exists mk, mk'. split; [eauto 8|]. split; [eauto 8|].
  apply parse_read in P, P'. destruct P as (? & ? & ? & ? & L1 & L2 & R & _), P' as (? & ? & ? & ? & L1' & L2' & R' & _).
  rewrite M in R. rewrite M' in R'. apply read3 in R as (_ & B1 & B2 & B3 & B4 & _). apply read3 in R' as (_ & B1' & B2' & B3' & B4' & _).
  apply tag_bound in L1, L2, L1', L2'.
  match goal with |- _ \/ clash _ ?a ?b => destruct (pair_dec a b) as [E|N]; [left|right; split; [exact N|cbn [fst snd]; congruence]] end.
  apply pair_equal_spec in E as [K E]. split; [exact K|]. apply data3_text in E; [|assumption..]. destruct E as (? & ? & ?). repeat split; try assumption; apply H1.
Qed.
Theorem one_message4 d st em t m d' st' em' t' m' : enabled d -> enabled d' -> delivered C d st em t -> delivered C d' st' em' t' ->
  em_message em = MData4 m -> em_message em' = MData4 m' -> d4_authenticator m = d4_authenticator m' ->
  exists key key', mac_key_of C st em key /\ mac_key_of C st' em' key' /\
    (key = key' /\ same_header em em' /\ same_data4 m m' \/
     clash (kdf C 64 x18) (key ++ encode_authenticator_data4 (em_sender em) (em_receiver em) m)
       (key' ++ encode_authenticator_data4 (em_sender em') (em_receiver em') m')).
Proof.
  intros EN EN' D D' M M' A. apply delivered_opens in D, D'; try assumption. destruct D as [(b & P) (text & O)], D' as [(b' & P') (text' & O')].
  unfold opens in O, O'. unfold mac_key_of. rewrite M in O. rewrite M' in O'. rewrite M, M'.
  destruct st; try contradiction. destruct st'; try contradiction.
  destruct O as (_ & ck & O1 & O4 & _). destruct O' as (_ & ck' & O1' & O4' & _).
  exists (mac_key4 C ck), (mac_key4 C ck'). split; [eauto 8|]. split; [eauto 8|].
  apply parse_read in P, P'. destruct P as (? & ? & ? & ? & L1 & L2 & R & _), P' as (? & ? & ? & ? & L1' & L2' & R' & _).
  rewrite M in R. rewrite M' in R'. apply read4 in R as (_ & B1 & B2 & B3 & B4 & _). apply read4 in R' as (_ & B1' & B2' & B3' & B4' & _).
  apply tag_bound in L1, L2, L1', L2'.
  match goal with |- _ \/ clash _ ?a ?b => destruct (bytes_dec a b) as [E|N]; [left|right; split; [exact N|]] end.
  - apply app_inj_len in E; [|unfold mac_key4; now rewrite !kdf_length]. destruct E as [K E].
    split; [assumption|]. apply data4_text in E; [|assumption..]. destruct E as (? & ? & ?). repeat split; try assumption; apply H1.
  - unfold kdf2 in O4, O4'. unfold kdf. change x18 with USAGE_AUTHENTICATOR. congruence.
Qed.
End Data.
