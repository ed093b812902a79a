(* Statements about the OTRv3 key exchange that combine several proofs; toy data for the examples. *)
From Verif Require Import Base BaseLemmas Types Crypto CryptoProofs ToyCrypto Encoding EncodingProofs Messages
  SpecWire AKE SpecAKE AKEProofs AKEConvProofs KeyManager SpecData3.
From Coq Require Import Lia ZifyBool ZifyNat ZifyN.
Local Open Scope N_scope.

Section WithCrypto.
Context (C : Crypto).

(** ** C27 *)

Lemma reveal_needs_proof host nonce st m st' mat sg :
  0 < c_dh_g C -> ake_handle_reveal C host nonce st m = (st', Ok (mat, sg)) ->
  exists our ge gh gx more rest,
    st = AkeAwaitingRevealSig our ge gh /\ st' = AkeNone /\
    let gxmpi := aes_crypt C (rv_key m) (repeat x00 16) ge in
    let s := modpow gx (dh_private our) (c_dh_p C) in
    sha256 C gxmpi = gh /\ read_mpi gxmpi = Ok (gx, more) /\ dh_public_ok C gx /\
    identity_proof3 C false s gx (dh_public our) (am_their_dsa mat) (rv_signature_encrypted m)
      (rv_signature_mac m) rest /\
    am_ssid mat = firstn 8 (derived3 C x00 s) /\ am_our_dh mat = our /\ am_their_dh mat = gx.
Proof.
  intros HG. destruct st as [|our r|our ge gh|our gy s p]; cbn [ake_handle_reveal]; intros H; try discriminate H.
  destruct (reveal_result C host nonce our ge gh m) as [[mat' sg']|e|] eqn:E; try discriminate H.
  injection H as <- -> ->.
  destruct (reveal_result_ok C _ _ _ _ _ _ _ _ HG E) as (gx & rest & E1 & (more & E2) & E3 & E4 & E5 & E6 & E7).
  exists our, ge, gh, gx, more, rest. cbn zeta. tauto.
Qed.

Lemma signature_needs_proof host st m st' mat :
  0 < c_dh_g C -> ake_run C host st -> ake_handle_signature C st m = (st', Ok mat) ->
  exists x gy s prev,
    st = AkeAwaitingSig (dh_new C x) gy s prev /\ st' = AkeNone /\ dh_public_ok C gy /\
    s = modpow gy x (c_dh_p C) /\
    identity_proof3 C true s gy (dh_public (dh_new C x)) (am_their_dsa mat) (sg_signature_encrypted m)
      (sg_signature_mac m) [] /\
    am_ssid mat = firstn 8 (derived3 C x00 s) /\ am_our_dh mat = dh_new C x /\ am_their_dh mat = gy.
Proof.
  intros HG HR. apply ake_run_inv in HR.
  destruct st as [|our r|our ge gh|our gy s p]; cbn [ake_handle_signature]; intros H; try discriminate H.
  destruct HR as (HO & HV & HS).
  destruct (signature_result C our gy s m) as [mat'|e|] eqn:E; try discriminate H.
  injection H as <- ->. apply signature_result_ok in E. destruct E as (E1 & E2 & E3 & E4).
  exists (dh_private our), gy, s, p. rewrite <- HO. apply dh_verify_iff in HV; [|exact HG].
  repeat split; try assumption; try apply E1; apply HV.
Qed.

Lemma failure_no_effect host nonce rnd st st' e :
  (forall m, ake_handle_dhcommit C st m rnd = (st', Err e) -> st' = st) /\
  (forall m, ake_handle_dhkey C host nonce st m = (st', Err e) -> st' = st) /\
  (forall m, ake_handle_reveal C host nonce st m = (st', Err e) -> st' = st) /\
  (forall m, ake_handle_signature C st m = (st', Err e) -> st' = st).
Proof.
  repeat split; intros m H.
  - destruct st as [|our r|our ge gh|our gy s p]; cbn [ake_handle_dhcommit] in H;
      [|destruct (_ <? _); [discriminate H|]|discriminate H|];
      unfold dhcommit_from_initial in H; destruct (dh_generate C rnd); congruence.
  - destruct st as [|our r|our ge gh|our gy s p]; cbn [ake_handle_dhkey] in H; try congruence.
    + destruct (negb _); [congruence|]. destruct host; [|congruence].
      destruct (ake_prove _ _ _ _ _ _). congruence.
    + destruct (negb _); congruence.
  - destruct st as [|our r|our ge gh|our gy s p]; cbn [ake_handle_reveal] in H; try congruence.
    destruct (reveal_result _ _ _ _ _ _ _); congruence.
  - destruct st as [|our r|our ge gh|our gy s p]; cbn [ake_handle_signature] in H; try congruence.
    destruct (signature_result _ _ _ _ _); congruence.
Qed.

(* the commitment that a client waits to see opened is the one it was sent, unless it was already
   waiting for another *)
Lemma commitment_origin st m rnd our ge gh r :
  ake_handle_dhcommit C st m rnd = (AkeAwaitingRevealSig our ge gh, r) ->
  (ge = dc_gx_encrypted m /\ gh = dc_gx_hashed m) \/ st = AkeAwaitingRevealSig our ge gh.
Proof.
  assert (F : dhcommit_from_initial C st m rnd = (AkeAwaitingRevealSig our ge gh, r) ->
              (ge = dc_gx_encrypted m /\ gh = dc_gx_hashed m) \/ st = AkeAwaitingRevealSig our ge gh).
  { unfold dhcommit_from_initial. destruct (dh_generate C rnd); intros H; injection H; intros; subst; auto. }
  destruct st as [|our' r'|our' ge' gh'|our' gy s p]; cbn [ake_handle_dhcommit]; try exact F.
  - destruct (_ <? _); [discriminate|exact F].
  - intros H. injection H as <- <- <- <-. auto.
Qed.

(** ** C28 *)

Lemma tie_break our_a ra our_b rb rnda rndb :
  let ca := dhcommit_message C our_a ra in
  let cb := dhcommit_message C our_b rb in
  let sa := AkeAwaitingDHKey our_a ra in
  let sb := AkeAwaitingDHKey our_b rb in
  rnda <> 0 -> rndb <> 0 -> be_val (dc_gx_hashed ca) <> be_val (dc_gx_hashed cb) ->
  (ake_handle_dhcommit C sa cb rnda = (sa, Ok (ReplyCommit ca)) /\
   exists nb, ake_handle_dhcommit C sb ca rndb
     = (AkeAwaitingRevealSig nb (dc_gx_encrypted ca) (dc_gx_hashed ca), Ok (ReplyKey (mkDHKey (dh_public nb)))))
  \/
  (ake_handle_dhcommit C sb ca rndb = (sb, Ok (ReplyCommit cb)) /\
   exists na, ake_handle_dhcommit C sa cb rnda
     = (AkeAwaitingRevealSig na (dc_gx_encrypted cb) (dc_gx_hashed cb), Ok (ReplyKey (mkDHKey (dh_public na))))).
Proof.
  intros ca cb sa sb NA NB NE.
  assert (FB : forall st m rnd, rnd <> 0 -> dhcommit_from_initial C st m rnd
    = (AkeAwaitingRevealSig (dh_new C rnd) (dc_gx_encrypted m) (dc_gx_hashed m),
       Ok (ReplyKey (mkDHKey (dh_public (dh_new C rnd)))))).
  { intros st m rnd NZ. unfold dhcommit_from_initial, dh_generate. destruct (N.eqb_spec rnd 0); [contradiction|]. reflexivity. }
  subst sa sb. unfold ake_handle_dhcommit.
  change (sha256 C (write_mpi (dh_public our_a))) with (dc_gx_hashed ca).
  change (sha256 C (write_mpi (dh_public our_b))) with (dc_gx_hashed cb).
  destruct (N.lt_total (be_val (dc_gx_hashed ca)) (be_val (dc_gx_hashed cb))) as [L|[L|L]]; [|contradiction|].
  - right. apply N.ltb_lt in L as L1. rewrite L1. split; [reflexivity|]. exists (dh_new C rnda).
    assert (L2 : be_val (dc_gx_hashed cb) <? be_val (dc_gx_hashed ca) = false) by (apply N.ltb_ge; lia).
    rewrite L2. now apply FB.
  - left. apply N.ltb_lt in L as L1. rewrite L1. split; [reflexivity|]. exists (dh_new C rndb).
    assert (L2 : be_val (dc_gx_hashed ca) <? be_val (dc_gx_hashed cb) = false) by (apply N.ltb_ge; lia).
    rewrite L2. now apply FB.
Qed.

Definition swap_net (s : ake_net) : ake_net :=
  mkAkeNet (an_b s) (an_a s) (an_ba s) (an_ab s) (an_done_b s) (an_done_a s).
Lemma swap_step ka kb s s' : ake_step C ka kb s s' -> ake_step C kb ka (swap_net s) (swap_net s').
Proof.
  intros [s0 m r rnd nonce st out done Q U R|s0 m r rnd nonce st out done Q U R].
  - apply (as_to_a C kb ka (swap_net s0) m r rnd nonce st out done Q U R).
  - apply (as_to_b C kb ka (swap_net s0) m r rnd nonce st out done Q U R).
Qed.
Lemma swap_steps ka kb s0 s : ake_steps C ka kb s0 s -> ake_steps C kb ka (swap_net s0) (swap_net s).
Proof.
  induction 1 as [|s s' H IH ST]; [constructor|]. eapply as_next; [exact IH|]. now apply swap_step.
Qed.

Lemma nonzero_of_lt x h : x < be_val h -> any_nonzero h = true.
Proof.
  intros H. unfold any_nonzero. destruct (all_zero h) eqn:E; [|reflexivity]. apply all_zero_be_val in E. lia.
Qed.

Lemma tie_wins ka kb xa xb s0 s :
  dh_params_ok C -> dsa_key_ok C ka -> dsa_key_ok C kb ->
  dh_public_ok C (dh_public (dh_new C xa)) ->
  both_initiated C s0 xa xb -> commit_hash C xb < commit_hash C xa ->
  ake_steps C ka kb s0 s -> an_ab s = [] -> an_ba s = [] ->
  an_a s = AkeNone /\ an_b s = AkeNone /\
  exists ma mb, an_done_a s = [ma] /\ an_done_b s = [mb] /\ ake_agree C ka kb ma mb /\ am_our_dh ma = dh_new C xa.
Proof.
  intros PO KA KB HA (ra & rb & ca & cb & I1 & I2 & Q1 & Q2 & D1 & D2) W ST E1 E2.
  unfold ake_initiate in I1, I2. bind_inv I1. bind_inv I2. apply dh_generate_ok in E, E0.
  destruct E as [-> _], E0 as [-> _]. injection I1 as I1 <-. injection I2 as I2 <-.
  assert (INV : tie_inv C ka kb xa xb ra rb s).
  { clear E1 E2. induction ST as [|s1 s2 ST IH STEP]; [apply tie_start; auto|].
    apply (tie_step C PO ka kb KA KB xa xb ra rb HA W s1 s2); auto. exact (nonzero_of_lt _ _ W). }
  now apply (tie_end C PO ka kb xa xb ra rb W s).
Qed.

Lemma tie_resolves ka kb xa xb s0 s :
  dh_params_ok C -> dsa_key_ok C ka -> dsa_key_ok C kb ->
  dh_public_ok C (dh_public (dh_new C xa)) -> dh_public_ok C (dh_public (dh_new C xb)) ->
  both_initiated C s0 xa xb -> commit_hash C xa <> commit_hash C xb ->
  ake_steps C ka kb s0 s -> an_ab s = [] -> an_ba s = [] ->
  an_a s = AkeNone /\ an_b s = AkeNone /\
  exists ma mb, an_done_a s = [ma] /\ an_done_b s = [mb] /\ ake_agree C ka kb ma mb /\
    (commit_hash C xb < commit_hash C xa -> am_our_dh ma = dh_new C xa) /\
    (commit_hash C xa < commit_hash C xb -> am_our_dh mb = dh_new C xb).
Proof.
  intros PO KA KB HA HB BI NE ST E1 E2.
  destruct (N.lt_total (commit_hash C xa) (commit_hash C xb)) as [L|[L|L]]; [|contradiction|].
  - assert (BI' : both_initiated C (swap_net s0) xb xa).
    { destruct BI as (ra & rb & ca & cb & ?). exists rb, ra, cb, ca. cbn. tauto. }
    destruct (tie_wins kb ka xb xa (swap_net s0) (swap_net s) PO KB KA HB BI' L (swap_steps _ _ _ _ ST) E2 E1)
      as (F1 & F2 & mb & ma & F3 & F4 & F5 & F6). cbn in F1, F2, F3, F4.
    split; [exact F2|]. split; [exact F1|]. exists ma, mb. split; [exact F4|]. split; [exact F3|].
    split; [|split; [lia|auto]]. unfold ake_agree in *. intuition congruence.
  - destruct (tie_wins ka kb xa xb s0 s PO KA KB HA BI L ST E1 E2) as (F1 & F2 & ma & mb & F3 & F4 & F5 & F6).
    split; [exact F1|]. split; [exact F2|]. exists ma, mb. repeat (split; [assumption|]). split; [auto|lia].
Qed.

(* what protocol.rs does with the material: both key managers are numbered 1 *)
Lemma first_keys ka kb xa xb ma mb ra0 ra1 rb0 rb1 a b :
  ake_agree C ka kb ma mb -> am_our_dh ma = dh_new C xa -> am_our_dh mb = dh_new C xb ->
  km_new C 1 (am_our_dh ma) 1 (am_their_dh ma) ra0 ra1 = Ok a ->
  km_new C 1 (am_our_dh mb) 1 (am_their_dh mb) rb0 rb1 = Ok b ->
  start3 C (mkConv3 a b [] []).
Proof.
  intros (_ & E1 & E2 & _) EA EB. rewrite E1, E2, EA, EB. intros H1 H2.
  exists xa, xb, ra0, ra1, rb0, rb1. auto.
Qed.

End WithCrypto.

(** ** toy data *)

Lemma toy_params_ok : dh_params_ok toy.
Proof. split; [reflexivity|]. split; reflexivity. Qed.

Lemma toy_dsa_key_ok x : x < 2 ^ 100 -> dsa_key_ok toy (toy_dsa x).
Proof.
  intros Hx. split.
  - split; [|split; reflexivity]. cbn [toy_dsa dsa_pk dsa_p dsa_q dsa_g dsa_y].
    assert (L : mpi_range (2 ^ 160)) by (vm_compute; reflexivity).
    assert (B : 2 ^ 100 * 4 <= 2 ^ 160) by (vm_compute; discriminate).
    assert (R : forall v, v <= 2 ^ 160 -> mpi_range v) by (intros v Hv; now apply mpi_range_le with (2 ^ 160)).
    apply Forall_cons; [apply R; vm_compute; discriminate|].
    apply Forall_cons; [apply R; vm_compute; discriminate|].
    apply Forall_cons; [apply R; vm_compute; discriminate|].
    apply Forall_cons; [apply R; clear R L; revert B; generalize (2 ^ 160); intros; lia|]. apply Forall_nil.
  - intros nonce d. cbn [toy c_dsa_sign c_dsa_verify toy_dsa dsa_pk dsa_y].
    pose proof (N.mod_upper_bound (be_val d) 65521 ltac:(lia)) as M.
    split; [|cbn [sig_r sig_s]; now rewrite !N.eqb_refl].
    unfold dsa_sig_ok. cbn [sig_r sig_s c_dsa_sig_ok toy].
    assert (65522 <= 2 ^ 160) by (vm_compute; discriminate).
    assert (2 ^ 100 * 4 <= 2 ^ 160) by (vm_compute; discriminate).
    split; [lia|]. split; [lia|]. destruct (N.eqb_spec (be_val d mod 65521 + 1) 0); [lia|].
    destruct (N.eqb_spec (x * 3 + 1 + 1) 0); [lia|]. reflexivity.
Qed.

Definition tk_a := toy_dsa 5.
Definition tk_b := toy_dsa 9.
Definition tr_a : bytes := repeat x31 16.
Definition tr_b : bytes := repeat x32 16.

Lemma toy_public x : dh_verify_public_key toy (dh_public (dh_new toy x)) = true ->
  dh_public_ok toy (dh_public (dh_new toy x)).
Proof. apply dh_verify_iff. reflexivity. Qed.

(* the states and messages of an exchange between tk_a (secret 17) and tk_b (secret 29) *)
Definition te_a1 := AkeAwaitingDHKey (dh_new toy 17) tr_a.
Definition te_commit := dhcommit_message toy (dh_new toy 17) tr_a.
Definition te_b1 := fst (ake_handle_dhcommit toy AkeNone te_commit 29).
Definition te_key := mkDHKey (dh_public (dh_new toy 29)).
Definition te_a2 := fst (ake_handle_dhkey toy (Some tk_a) [] te_a1 te_key).
Definition te_reveal := match snd (ake_handle_dhkey toy (Some tk_a) [] te_a1 te_key) with
                        | Ok r => r | _ => mkRevealSig [] [] [] end.
Definition te_sig := match snd (ake_handle_reveal toy (Some tk_b) [] te_b1 te_reveal) with
                     | Ok (_, s) => s | _ => mkSigMsg [] [] end.

Lemma te_run_b : ake_run toy (Some tk_b) te_b1.
Proof.
  apply (ak_commit toy _ AkeNone te_commit 29 te_b1 (Ok (ReplyKey te_key)) (ak_new _ _)); [|discriminate].
  vm_compute. reflexivity.
Qed.
Lemma te_run_a : ake_run toy (Some tk_a) te_a2.
Proof.
  apply (ak_key toy _ te_a1 te_key [] te_a2 (Ok te_reveal)); [|vm_compute; reflexivity|discriminate].
  apply (ak_initiate toy _ AkeNone 17 tr_a te_a1 te_commit (ak_new _ _)). vm_compute. reflexivity.
Qed.

(* an executable form of the network steps, for examples *)
Definition unexceptional_b (C : Crypto) (m : encoded_type) : bool :=
  match m with
  | MDHCommit m => any_nonzero (dc_gx_hashed m)
  | MDHKey m => dh_verify_public_key C (dk_gy m)
  | MRevealSig m => any_nonzero (rv_signature_mac m)
  | MSignature m => any_nonzero (sg_signature_mac m)
  | _ => true
  end.
Lemma unexceptional_b_ok C m : 0 < c_dh_g C -> unexceptional_b C m = true -> unexceptional C m.
Proof. intros G. destruct m; cbn; auto. now apply dh_verify_iff. Qed.
Definition net_step (C : Crypto) (ka kb : dsa_keypair) (s : ake_net) (to_b : bool) (rnd : N) : option ake_net :=
  match (if to_b then an_ab s else an_ba s) with
  | m :: r =>
      if unexceptional_b C m then
        match ake_receive C (Some (if to_b then kb else ka)) rnd [] (if to_b then an_b s else an_a s) m with
        | Some (st, out, done) =>
            Some (if to_b
                  then mkAkeNet (an_a s) st r (an_ba s ++ out) (an_done_a s) (an_done_b s ++ done)
                  else mkAkeNet st (an_b s) (an_ab s ++ out) r (an_done_a s ++ done) (an_done_b s))
        | None => None
        end
      else None
  | [] => None
  end.
Lemma net_step_ok C ka kb s b rnd s' :
  0 < c_dh_g C -> net_step C ka kb s b rnd = Some s' -> ake_step C ka kb s s'.
Proof.
  intros G. unfold net_step. destruct b.
  - destruct (an_ab s) as [|m r] eqn:Q; [discriminate|]. destruct (unexceptional_b C m) eqn:U; [|discriminate].
    destruct (ake_receive _ _ _ _ _ _) as [[[st out] done]|] eqn:R; [|discriminate]. intros [= <-].
    eapply as_to_b; eauto using unexceptional_b_ok.
  - destruct (an_ba s) as [|m r] eqn:Q; [discriminate|]. destruct (unexceptional_b C m) eqn:U; [|discriminate].
    destruct (ake_receive _ _ _ _ _ _) as [[[st out] done]|] eqn:R; [|discriminate]. intros [= <-].
    eapply as_to_a; eauto using unexceptional_b_ok.
Qed.
Fixpoint net_steps (C : Crypto) (ka kb : dsa_keypair) (s : ake_net) (l : list (bool * N)) : option ake_net :=
  match l with
  | [] => Some s
  | (b, rnd) :: l => match net_step C ka kb s b rnd with Some s' => net_steps C ka kb s' l | None => None end
  end.
Lemma net_steps_ok C ka kb l : forall s0 s s',
  0 < c_dh_g C -> ake_steps C ka kb s0 s -> net_steps C ka kb s l = Some s' -> ake_steps C ka kb s0 s'.
Proof.
  induction l as [|[b rnd] l IH]; intros s0 s s' G H E; cbn in E.
  - injection E as <-. exact H.
  - destruct (net_step C ka kb s b rnd) as [s1|] eqn:E1; [|discriminate].
    apply (IH s0 s1 s' G); [|exact E]. eapply as_next; [exact H|]. eapply net_step_ok; eauto.
Qed.

Definition tie_s0 : ake_net :=
  mkAkeNet te_a1 (AkeAwaitingDHKey (dh_new toy 29) tr_b)
    [MDHCommit te_commit] [MDHCommit (dhcommit_message toy (dh_new toy 29) tr_b)] [] [].
Definition tie_schedule : list (bool * N) :=
  [(false, 41); (true, 43); (false, 1); (true, 1); (false, 1); (true, 1); (false, 1); (true, 1)].
