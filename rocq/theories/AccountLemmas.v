(* Proofs about accounts: legal instance tags on the network, creating an account; the counterexamples. *)
From Coq Require Import Lia ZifyN ZifyNat.
From Verif Require Import Base BaseLemmas Types Crypto CryptoProofs ToyCrypto ToyGroup Encoding EncodingProofs ClientProfile
  ClientProfileProofs WireLemmas Messages Base64 Fragment DAKE DAKEExamples Session SpecWire SpecCurve SpecSMP4 SMP4Lemmas EddsaProofs
  SpecSession SessionProofs SessionInvProofs SessionSendProofs SessionHistProofs SessionExamples Account SpecAccount AccountProofs.
Local Open Scope N_scope.

Section WithCrypto.
Context (C : Crypto).

Lemma read_tag_legal buf t rest : read_instance_tag buf = Ok (t, rest) -> legal_tag t.
Proof.
  unfold read_instance_tag. intros H. apply bind_ok in H. destruct H as ((v & r) & _ & H).
  apply bind_ok in H. destruct H as (u & T & H). injection H as <- _. apply tag_verify_legal in T.
  destruct T as [-> L]. exact L.
Qed.
Lemma parse_legal b em : parse C b = Ok (MsgEncoded em) -> legal_tag (em_sender em) /\ legal_tag (em_receiver em).
Proof.
  unfold parse. destruct (_ && _).
  - unfold parse_encoded_message. destruct (b64_decode _) as [buf|]; [|discriminate]. intros H.
    apply bind_ok in H. destruct H as ((m & r) & R & H). injection H as ->.
    unfold read_encoded_message in R.
    repeat bind_inv R. injection R as <- _. cbn. split; eapply read_tag_legal; eassumption.
  - intros H. exfalso. revert H. unfold parse_plain_message.
    repeat match goal with |- context [if ?c then _ else _] => destruct c end; try discriminate.
    all: repeat match goal with |- context [match ?c with _ => _ end] => destruct c end; discriminate.
Qed.

Lemma fields_owner_legal fuel : forall count buf fs rest, read_fields C fuel count buf = Ok (fs, rest) ->
  forall t, In (FOwnerTag t) fs -> legal_tag t.
Proof.
  induction fuel as [|fuel IH]; intros count buf fs rest; cbn [read_fields]; destruct (count =? 0); try discriminate;
    try (intros H; injection H as <- _; intros t []).
  intros H. apply bind_ok in H. destruct H as ((v & r) & F & H). apply bind_ok in H. destruct H as ((vs & r') & FS & H).
  injection H as <- _. intros t [->|I]; [|eapply IH; eassumption].
  unfold read_field in F. apply bind_ok in F. destruct F as ((ty & b) & _ & F).
  repeat match type of F with (if ?c then _ else _) = _ => destruct c end; try discriminate F.
  - apply bind_ok in F. destruct F as ((u & b') & T & F). injection F as -> _. eapply read_tag_legal; eassumption.
  - apply bind_ok in F. destruct F as ((u & b') & _ & F). destruct (negb _); [discriminate|].
    apply bind_ok in F. destruct F as ((? & ?) & _ & F). discriminate.
  - apply bind_ok in F. destruct F as ((u & b') & _ & F). destruct (negb _); [discriminate|].
    apply bind_ok in F. destruct F as ((? & ?) & _ & F). discriminate.
  - apply bind_ok in F. destruct F as ((u & b') & _ & F). discriminate.
  - apply bind_ok in F. destruct F as ((u & b') & _ & F). discriminate.
  - apply bind_ok in F. destruct F as ((u & b') & _ & F). discriminate.
  - apply bind_ok in F. destruct F as ((u & b') & _ & F). discriminate.
Qed.
Lemma profile_owner_legal buf p rest cp : read_payload C buf = Ok (p, rest) -> payload_validate C p = Ok cp ->
  legal_tag (cp_owner cp).
Proof.
  unfold read_payload. intros H V. apply bind_ok in H. destruct H as ((n & b) & _ & H).
  apply bind_ok in H. destruct H as ((fs & b') & F & H). apply bind_ok in H. destruct H as ((sg & b'') & _ & H).
  apply bind_ok in H. destruct H as (? & _ & H). injection H as <- _.
  apply fields_owner_legal with (t := cp_owner cp) in F; [exact F|].
  apply payload_validate_iff in V. unfold payload_accepted in V. cbn [pl_fields] in V.
  destruct V as (O & _). unfold only in O.
  assert (I : In (cp_owner cp) (flat_map sel_owner fs)) by (rewrite O; left; reflexivity).
  apply in_flat_map in I. destruct I as (f & I & J). destruct f; cbn in J; try contradiction.
  destruct J as [->|[]]. exact I.
Qed.
Lemma account_tag_legal h now draws nonce name p a h' :
  account_new C h now draws nonce name p = Some (Ok (a, h')) -> legal_tag (ac_tag a).
Proof.
  intros H. apply account_profile in H. destruct H as (_ & _ & _ & -> & _ & _ & _ & [[_ R]|(L & _ & t & _ & G)]).
  - unfold restore_clientprofile, decode_profile in R. apply bind_ok in R. destruct R as (pl & D & V).
    apply bind_ok in D. destruct D as ((q & rest) & RP & D). apply bind_ok in D. destruct D as (? & _ & D).
    injection D as ->. eapply profile_owner_legal; eassumption.
  - apply generated_content in G. destruct G as (L' & -> & _). exact L'.
Qed.

(** ** An account is created *)

Lemma restore_safe h : restore_clientprofile C h <> Panic.
Proof.
  unfold restore_clientprofile, decode_profile. apply bind_no_panic.
  - apply bind_no_panic; [apply read_payload_safe|]. intros [p r] _. apply bind_no_panic; [|discriminate].
    destruct r; discriminate.
  - intros. apply payload_validate_safe.
Qed.

Lemma sign_ok sym k m : smp4_group C -> eddsa_of_symmetric C sym = Ok k -> ~ degenerate_signature C k m ->
  exists sg, eddsa_sign C k m = Ok sg /\ eddsa_validate C (ed_public k) sg m = Ok tt.
Proof.
  intros GO K ND.
  destruct (eddsa_sign C k m) as [sg|x|] eqn:S.
  - exists sg. split; [reflexivity|].
    assert (D : exists R, pt_decode C (edsig_R sg) = Some R).
    { unfold eddsa_sign in S. apply bind_ok in S. destruct S as (b & _ & S).
      assert (OI : forall A (x y : A), Ok x = Ok y -> y = x) by congruence. apply OI in S. subst sg. cbn [edsig_R].
      eexists. apply PointProofs.point_round_trip; try apply GO. apply EdGroup.valid_mul; [|apply GO]. apply GO. }
    destruct D as (R & D). eapply sign_verifies; try eassumption.
    + intros ->. apply ND. exists sg. auto.
    + intros E. apply ND. exists sg. auto.
  - exfalso. unfold eddsa_sign in S. unfold eddsa_of_symmetric in K. apply bind_ok in K. destruct K as (b & P & K).
    assert (OI : forall A (x y : A), Ok x = Ok y -> y = x) by congruence. apply OI in K. subst k.
    cbn [ed_symmetric] in S. rewrite P in S. discriminate S.
  - exfalso. unfold eddsa_sign in S. unfold eddsa_of_symmetric in K. apply bind_ok in K. destruct K as (b & P & K).
    assert (OI : forall A (x y : A), Ok x = Ok y -> y = x) by congruence. apply OI in K. subst k.
    cbn [ed_symmetric] in S. rewrite P in S. discriminate S.
Qed.

Definition signed_fields (p : client_profile) (legacy : option dsa_keypair) (nonce : bytes) : list field :=
  let fields := [FOwnerTag (cp_owner p); FIdentityKey (cp_identity p); FForgingKey (cp_forging p);
                 FVersions (cp_versions p); FExpiration (cp_expiration p)] in
  match cp_legacy p, legacy with
  | Some pk, Some kp =>
      let fs := fields ++ [FLegacyKey pk] in
      fs ++ [FTransitional (dsa_sign C kp nonce (write_fields fs))]
  | _, _ => fields
  end.
Lemma signs_valid sym k p legacy nonce : smp4_group C -> eddsa_of_symmetric C sym = Ok k ->
  ~ degenerate_signature C k (write_fields (signed_fields p legacy nonce)) ->
  cp_identity p = ed_public k -> cp_versions p <> [] ->
  cp_legacy p = option_map dsa_pk legacy -> (legacy = None -> ~ In V3 (cp_versions p)) ->
  (forall kp m, legacy = Some kp -> dsa_validate C (dsa_pk kp) (dsa_sign C kp nonce m) m = Ok tt) ->
  exists payload, profile_sign C p k legacy nonce = Ok payload.
Proof.
  intros GO K ND I VN L V3I DS. unfold profile_sign. fold (signed_fields p legacy nonce). rewrite I.
  assert (point_eqb (ed_public k) (ed_public k) = true) as -> by (unfold point_eqb; now rewrite !Z.eqb_refl).
  assert (is_some (cp_legacy p) = is_some legacy) as -> by (rewrite L; now destruct legacy).
  rewrite Bool.eqb_reflx. cbn [negb].
  destruct (sign_ok sym k _ GO K ND) as (sg & S & V).
  unfold signed_fields in *. rewrite I in *. rewrite L in *.
  destruct legacy as [kp|]; cbn [option_map] in *.
  - set (fs := [FOwnerTag _; _; _; _; _] ++ [FLegacyKey _]) in *.
    set (fs' := fs ++ [FTransitional _]) in *. rewrite S. cbn [bind].
    assert (A : payload_accepted C (mkPayload fs' sg) p).
    { unfold payload_accepted. cbn [pl_fields pl_signature]. rewrite I, L. cbn [option_map].
      repeat split; try assumption.
      - now exists O.
      - unfold fs', fs. eexists. split; [reflexivity|]. exact (DS kp _ eq_refl). }
    apply payload_validate_iff in A. rewrite A. eauto.
  - set (fs := [FOwnerTag _; _; _; _; _]) in *. rewrite S. cbn [bind].
    assert (A : payload_accepted C (mkPayload fs sg) p).
    { unfold payload_accepted. cbn [pl_fields pl_signature]. rewrite I, L. cbn [option_map].
      repeat split; try assumption; [now exists O|auto]. }
    apply payload_validate_iff in A. rewrite A. eauto.
Qed.

Lemma account_created h now draws nonce name p sym t :
  smp4_group C -> eddsa_of_symmetric C sym = Ok (ah_identity h) ->
  pt_verify C (ed_public (ah_identity h)) = true -> pt_verify C (ah_forging h) = true ->
  (forall kp m, ah_legacy h = Some kp -> dsa_validate C (dsa_pk kp) (dsa_sign C kp nonce m) m = Ok tt) ->
  now + 604800 < 9223372036854775808 ->
  random_tag draws = Some t ->
  ~ degenerate_signature C (ah_identity h) (write_fields (new_fields C h now t nonce)) ->
  exists a h', account_new C h now draws nonce name p = Some (Ok (a, h')).
Proof.
  intros GO K VI VF DS NW T ND. unfold account_new. pose proof (restore_safe h) as RS.
  destruct (restore_clientprofile C h) as [q|x|]; [eauto| |contradiction].
  rewrite T. apply random_tag_legal in T. unfold generate_clientprofile.
  change DEFAULT_EXPIRATION with 604800.
  destruct (Z.ltb_spec 9223372036854775807 (Z.of_N (now + 604800))) as [B|B]; [lia|].
  set (pr := mkProfile _ _ _ _ _ _). assert (PN : profile_new C now pr = Ok pr).
  { unfold profile_new, pr. cbn [cp_owner cp_identity cp_forging cp_versions cp_expiration].
    assert (tag_verify t = Ok t) as ->.
    { unfold tag_verify, INSTANCE_MIN_VALID. destruct (N.ltb_spec t 256) as [A|A]; [lia|]. now rewrite andb_false_r. }
    rewrite VI, VF. cbn [of_bool bind].
    assert (verify_versions (V4 :: match ah_legacy h with Some _ => [V3] | None => [] end) = Ok tt) as ->
      by (destruct (ah_legacy h); reflexivity).
    cbn [bind]. destruct (Z.ltb_spec (Z.of_N (now + 604800)) 0) as [A|A]; [lia|]. cbn [orb].
    rewrite N2Z.id. destruct (N.leb_spec (now + 604800) now) as [A'|A']; [lia|reflexivity]. }
  rewrite PN. destruct (signs_valid sym (ah_identity h) pr (ah_legacy h) nonce GO K) as (pl & S); try reflexivity.
  - replace (signed_fields pr (ah_legacy h) nonce) with (new_fields C h now t nonce); [exact ND|].
    unfold new_fields, signed_fields, pr. cbn. destruct (ah_legacy h); reflexivity.
  - discriminate.
  - cbn. intros E. rewrite E. cbn. intuition discriminate.
  - exact DS.
  - rewrite S. cbn [bind]. eauto.
Qed.

Lemma account_profile_is h now draws nonce name p a h' :
  account_new C h now draws nonce name p = Some (Ok (a, h')) ->
  ac_tag a = cp_owner (ac_profile a) /\
  ((h' = h /\ exists pl, read_payload C (ah_profile h) = Ok (pl, []) /\ payload_accepted C pl (ac_profile a))
   \/ (ac_profile a = mkProfile (ac_tag a) (ed_public (ah_identity h)) (ah_forging h)
         (V4 :: match ah_legacy h with Some _ => [V3] | None => [] end) (Z.of_N (now + 604800))
         (option_map dsa_pk (ah_legacy h)) /\
       random_tag draws = Some (ac_tag a) /\
       exists pl, ah_profile h' = write_payload pl /\ payload_accepted C pl (ac_profile a))).
Proof.
  intros H. apply account_profile in H. destruct H as (_ & _ & _ & TG & _ & _ & _ & D). split; [exact TG|].
  destruct D as [[-> R]|(L & _ & t & RT & G)].
  - left. split; [reflexivity|]. unfold restore_clientprofile, decode_profile in R.
    apply bind_ok in R. destruct R as (pl & D & V).
    apply bind_ok in D. destruct D as ((q & rest) & RP & D). apply bind_ok in D. destruct D as (? & DN & D).
    injection D as ->. exists pl. destruct rest; [|discriminate]. split; [exact RP|]. now apply payload_validate_iff.
  - right. apply generated_content in G. destruct G as (_ & O & I & F & V & X & LG & pl & S & ST & _).
    rewrite TG, O. split; [|split; [exact RT|]].
    + destruct (ac_profile a); cbn in *. subst. reflexivity.
    + exists pl. split; [exact ST|]. eapply signed_profile; eassumption.
Qed.
Lemma account_expires a0 h a es timeout a' out r :
  account_run C a0 h a -> ac_sessions a0 = [] -> account_expire C es a timeout = (a', out, r) -> r <> Panic ->
  r = Ok tt /\
  forall address s, find_session address (ac_sessions a) = Some s -> exists s' before o after,
    find_session address (ac_sessions a') = Some s' /\ out = before ++ o ++ after /\
    expire C (es address) s timeout = (s', o, Ok tt).
Proof.
  intros R E X NP. destruct (account_inv C a0 h a R E) as (_ & ND & I). unfold account_expire in X.
  destruct (expire_sessions C es timeout (ac_sessions a)) as [[l q] x] eqn:ES. injection X as <- -> ->.
  apply expire_sessions_ok in ES; [| | |assumption].
  - destruct ES as (-> & _ & F). split; [reflexivity|]. exact F.
  - assumption.
  - intros y s IN. apply in_find in IN; [|assumption]. destruct (I y) as (hs & _ & HI & _).
    unfold account_session in HI. rewrite IN in HI. now apply history_inv in HI.
Qed.
Lemma eddsa_signs sym k m : eddsa_of_symmetric C sym = Ok k -> exists sg, eddsa_sign C k m = Ok sg.
Proof.
  unfold eddsa_of_symmetric, eddsa_sign. intros K. apply bind_ok in K. destruct K as (b & P & K).
  assert (OI : forall A (x y : A), Ok x = Ok y -> y = x) by congruence. apply OI in K. subst k.
  cbn [ed_symmetric]. rewrite P. cbn [bind]. eauto.
Qed.
Lemma eddsa_iff sym k m sg :
  smp4_group C -> eddsa_of_symmetric C sym = Ok k -> eddsa_sign C k m = Ok sg ->
  (eddsa_validate C (ed_public k) sg m = Ok tt <-> ~ degenerate_signature C k m).
Proof.
  intros GO K S. split.
  - intros V (sg' & S' & D). assert (sg' = sg) by congruence. subst sg'. clear S'. unfold eddsa_validate in V.
    destruct D as [D|D].
    + rewrite D in V. replace (pt_verify C pt_id) with false in V by reflexivity. discriminate V.
    + rewrite D in V. destruct (pt_decode C (edsig_R sg)); [|discriminate V].
      destruct (pt_verify C p); [|discriminate V]. discriminate V.
  - intros ND. destruct (sign_ok sym k m GO K ND) as (sg' & S' & V). congruence.
Qed.
End WithCrypto.

(** ** Counterexamples *)

(* a host whose stored profile is properly signed, but names instance tag 0 *)
Definition ra_profile : client_profile := Eval vm_compute in
  mkProfile 0 (ed_public xd_ka) (pt_mul toy (c_ed_g toy) 7) [V4] 946684800 None.
Definition ra_host : account_host := Eval vm_compute in
  mkAccountHost (match profile_sign toy ra_profile xd_ka None [] with Ok p => write_payload p | _ => [] end)
    xd_ka (pt_mul toy (c_ed_g toy) 7) None.
Definition ra_policy : policy := mkPolicy true true false false false false.
Lemma restored : restore_clientprofile toy ra_host = Ok ra_profile.
Proof. vm_compute. reflexivity. Qed.
Lemma ra_new : account_new toy ra_host xd_now [] [] [] ra_policy
  = Some (Ok (mkAccount ra_policy 0 [] ra_profile [], ra_host)).
Proof. unfold account_new. rewrite restored. reflexivity. Qed.
Lemma account_zero : ~ (forall C h now draws nonce name p a h',
  account_new C h now draws nonce name p = Some (Ok (a, h')) -> 256 <= ac_tag a).
Proof.
  intros H. specialize (H _ _ _ _ _ _ _ _ _ ra_new). cbn [ac_tag] in H. lia.
Qed.
Lemma account_expired : ~ (forall C h now draws nonce name p a h',
  account_new C h now draws nonce name p = Some (Ok (a, h')) -> (Z.of_N now < cp_expiration (ac_profile a))%Z).
Proof.
  intros H. specialize (H _ _ _ _ _ _ _ _ _ ra_new). cbn [ac_profile cp_expiration ra_profile] in H.
  unfold xd_now in H. lia.
Qed.

(* a host without a profile *)
Definition na_host : account_host := mkAccountHost [] xd_ka (pt_mul toy (c_ed_g toy) 7) (Some (toy_dsa 5)).
Definition na_new : account * account_host := Eval vm_compute in
  match account_new toy na_host xd_now [[x00; x00; x00; xff]; [x00; x01; x02; x03]] [] [x61] ra_policy with
  | Some (Ok x) => x | _ => (mkAccount ra_policy 0 [] ra_profile [], ra_host) end.
Lemma na_created : account_new toy na_host xd_now [[x00; x00; x00; xff]; [x00; x01; x02; x03]] [] [x61] ra_policy
  = Some (Ok na_new).
Proof. vm_compute. reflexivity. Qed.

Lemma na_facts :
  host_keys_ok toy na_host /\
  account_new toy na_host xd_now [[x00; x00; x00; xff]; [x00; x01; x02; x03]] [] [x61] ra_policy = Some (Ok na_new) /\
  account_new toy (snd na_new) 0 [] [] [x61] ra_policy = Some (Ok na_new) /\
  smp4_group toy /\ eddsa_of_symmetric toy [x01] = Ok (ah_identity na_host) /\
  pt_verify toy (ed_public (ah_identity na_host)) = true /\ pt_verify toy (ah_forging na_host) = true /\
  ~ degenerate_signature toy (ah_identity na_host) (write_fields (new_fields toy na_host xd_now 66051 [])).
Proof.
  split; [|split; [exact na_created|split; [vm_compute; reflexivity|split; [exact toy_smp4_group|]]]].
  - split; [vm_compute; reflexivity|]. split; [vm_compute; reflexivity|]. cbn [ah_legacy na_host]. split.
    + split; [|split; vm_compute; reflexivity].
      repeat (apply Forall_cons || apply Forall_nil); vm_compute; reflexivity.
    + intros nonce m. unfold dsa_sig_ok, dsa_sign.
      change (c_dsa_sign toy (toy_dsa 5) nonce ?h) with (mkDsaSig (be_val h mod 65521 + 1) 17). cbn [sig_r sig_s].
      set (z := be_val _). assert (z mod 65521 < 65521) by (apply N.mod_lt; discriminate).
      split; [|split; [reflexivity|]].
      * apply N.lt_trans with (2 ^ 20); [|reflexivity]. change (2 ^ 20) with 1048576. clearbody z. lia.
      * change (negb (z mod 65521 + 1 =? 0) && true = true). rewrite andb_true_r. clearbody z.
        destruct (N.eqb_spec (z mod 65521 + 1) 0); [lia|reflexivity].
  - split; [vm_compute; reflexivity|]. split; [vm_compute; reflexivity|]. split; [vm_compute; reflexivity|].
    intros (sg & S & D). set (m := write_fields _) in S.
    assert (V : exists g, eddsa_sign toy xd_ka m = Ok g /\ pt_decode toy (edsig_R g) <> Some pt_id /\ le_val (edsig_s g) <> 0).
    { unfold m. eexists. split; [vm_compute; reflexivity|]. split; vm_compute; discriminate. }
    destruct V as (g & S' & A & B). assert (g = sg) by (cbn [ah_identity na_host] in S; congruence). subst g. tauto.
Qed.

Definition na_e (a : bytes) : N -> env := xs_ea x14.
Definition na_a1 := Eval vm_compute in fst (fst (account_call toy na_e (fst na_new) (AcCall [x62] OpQuery))).
Definition na_a2 := Eval vm_compute in fst (fst (account_call toy na_e na_a1 (AcCall [x63] (OpSend 0 xs_hi)))).
Lemma na_run : exists h a,
  account_run toy (fst na_new) h a /\ ac_sessions (fst na_new) = [] /\
  length h = 3%nat /\ map fst (ac_sessions a) = [[x62]; [x63]].
Proof.
  eexists. eexists. split; [|split; [reflexivity|]].
  - apply account_run_call with (a := na_a2) (es := na_e) (o := AcExpire 0); [| |].
    + apply account_run_call with (a := na_a1) (es := na_e) (o := AcCall [x63] (OpSend 0 xs_hi)); [| |].
      * apply account_run_call with (a := fst na_new) (es := na_e) (o := AcCall [x62] OpQuery); [constructor| |].
        -- vm_compute. reflexivity.
        -- discriminate.
      * vm_compute. reflexivity.
      * discriminate.
    + vm_compute. reflexivity.
    + discriminate.
  - split; reflexivity.
Qed.
