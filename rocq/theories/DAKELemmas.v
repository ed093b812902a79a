(* Statements about the OTRv4 key exchange that combine several proofs. *)
From Coq Require Import Lia ZifyN ZifyNat.
From Verif Require Import Base BaseLemmas Types Crypto Encoding ClientProfile ClientProfileProofs Messages SpecWire
  Ratchet DAKE SpecDAKE DAKEProofs.
Local Open Scope N_scope.

Section WithCrypto.
Context (C : Crypto).

(* the holder of the larger hash repeats its own Identity *)
Lemma tie_keep h rnd ring st account contact wa m cp :
  st = DakeAwaitingAuthR wa -> identity_validate C m = Ok cp ->
  be_val (shake256 C 32 (write_mpi (id_b m))) < be_val (shake256 C 32 (write_mpi (id_b (wr_identity wa)))) ->
  dake_handle_identity C h rnd ring st m account contact = (st, Ok (ReplyIdentity (wr_identity wa))).
Proof.
  intros -> V L. unfold dake_handle_identity, hashed_b. rewrite V. cbv zeta.
  destruct (N.ltb_spec (be_val (shake256 C 32 (write_mpi (id_b m))))
              (be_val (shake256 C 32 (write_mpi (id_b (wr_identity wa)))))); [reflexivity|lia].
Qed.
(* the other one does not: if it replies at all, it answers *)
Lemma tie_yield h rnd ring st account contact wa m st' r :
  st = DakeAwaitingAuthR wa ->
  be_val (shake256 C 32 (write_mpi (id_b (wr_identity wa)))) < be_val (shake256 C 32 (write_mpi (id_b m))) ->
  dake_handle_identity C h rnd ring st m account contact = (st', Ok r) ->
  exists w ar, st' = DakeAwaitingAuthI w /\ r = ReplyAuthR ar /\
    wi_y w = id_y m /\ wi_b w = id_b m /\ wi_ecdh0_other w = id_ecdh0 m /\ wi_dh0_other w = id_dh0 m.
Proof.
  intros -> L H. unfold dake_handle_identity, hashed_b in H.
  destruct (identity_validate C m) as [cp| |]; try discriminate H. cbv zeta in H.
  destruct (N.ltb_spec (be_val (shake256 C 32 (write_mpi (id_b m))))
              (be_val (shake256 C 32 (write_mpi (id_b (wr_identity wa)))))); [lia|].
  destruct (answer_identity C h rnd ring m cp account contact) as [[w ar]| |] eqn:A; try discriminate H.
  exists w, ar. split; [congruence|]. split; [congruence|].
  unfold answer_identity in A.
  destruct (decode_profile C _); cbn [bind] in A; try discriminate A.
  destruct (ecdh_generate C _); cbn [bind] in A; try discriminate A.
  destruct (payload_validate C _); cbn [bind] in A; try discriminate A.
  destruct (ecdh_generate C _); cbn [bind] in A; try discriminate A.
  destruct (ring_sign _ _ _ _ _ _ _); cbn [bind] in A; try discriminate A.
  destruct (mixed_new _ _ _ _ _); cbn [bind] in A; try discriminate A.
  apply ok_inj in A. apply (f_equal fst) in A. cbn [fst] in A. subst w. auto.
Qed.

Lemma tie_break4 ha hb na nb rnda ringa rndb ringb wa wb ca cb sa' ra sb' rb :
  let ia := wr_identity wa in let ib := wr_identity wb in
  be_val (shake256 C 32 (write_mpi (id_b ia))) <> be_val (shake256 C 32 (write_mpi (id_b ib))) ->
  identity_validate C ia = Ok ca -> identity_validate C ib = Ok cb ->
  dake_handle_identity C ha rnda ringa (DakeAwaitingAuthR wa) ib na nb = (sa', Ok ra) ->
  dake_handle_identity C hb rndb ringb (DakeAwaitingAuthR wb) ia nb na = (sb', Ok rb) ->
  let keeps st w r := st = DakeAwaitingAuthR w /\ r = ReplyIdentity (wr_identity w) in
  let answers st r m := exists w ar, st = DakeAwaitingAuthI w /\ r = ReplyAuthR ar /\
     wi_y w = id_y m /\ wi_b w = id_b m /\ wi_ecdh0_other w = id_ecdh0 m /\ wi_dh0_other w = id_dh0 m in
  (keeps sa' wa ra /\ answers sb' rb ia) \/ (answers sa' ra ib /\ keeps sb' wb rb).
Proof.
  intros ia ib NE VA VB HA HB. cbv zeta.
  destruct (N.lt_total (be_val (shake256 C 32 (write_mpi (id_b ia)))) (be_val (shake256 C 32 (write_mpi (id_b ib)))))
    as [L|[E|L]]; [right|contradiction|left].
  - split; [eapply tie_yield; [reflexivity|exact L|exact HA]|].
    rewrite (tie_keep hb rndb ringb _ nb na wb ia ca eq_refl VA L) in HB. split; congruence.
  - split; [|eapply tie_yield; [reflexivity|exact L|exact HB]].
    rewrite (tie_keep ha rnda ringa _ na nb wa ib cb eq_refl VB L) in HA. split; congruence.
Qed.

(* An accepted Auth-I is accepted again, at any later time, and again yields the first ratchet. *)
Lemma auth_i_replays st m account contact now st' mat :
  dake_handle_auth_i C now st m account contact = (st', Ok mat) ->
  st' = st /\ forall now', exists mat',
    dake_handle_auth_i C now' st' m account contact = (st', Ok mat') /\
    dm_ssid mat' = dm_ssid mat /\ dm_us mat' = dm_us mat /\ dm_them mat' = dm_them mat /\
    dm_ratchet mat' =
      let d := dm_ratchet mat in
      mkDR now' (dr_shared d) (dr_root_key d) (dr_sender d) (dr_receiver d) (dr_next d) (dr_i d) (dr_pn d)
           (dr_reveals d).
Proof.
  destruct st as [|w|w]; cbn [dake_handle_auth_i]; intros H; try discriminate H.
  assert (ES := f_equal fst H). assert (ER := f_equal snd H). cbn [fst snd] in ES, ER. clear H. subst st'.
  split; [reflexivity|]. intros now'. cbn [dake_handle_auth_i].
  destruct (payload_validate C (wi_profile_alice w)); cbn [bind] in *; try discriminate ER.
  destruct (payload_validate C (wi_profile_bob w)); cbn [bind] in *; try discriminate ER.
  destruct (ring_validate _ _ _ _ _ _); cbn [bind] in *; try discriminate ER.
  destruct (mixed_new _ _ _ _ _) as [s| |]; cbn [bind] in *; try discriminate ER.
  apply ok_inj in ER. subst mat. eexists. split; [reflexivity|].
  cbn [dm_ssid dm_us dm_them dm_ratchet]. repeat split.
Qed.

(* An Auth-R completes the exchange once. *)
Lemma auth_r_once h ring er dr now st m account contact st' mat i :
  dake_handle_auth_r C h ring er dr now st m account contact = (st', Ok (mat, i)) ->
  forall h ring er dr now m account contact,
  dake_handle_auth_r C h ring er dr now st' m account contact = (st', Err IncorrectState).
Proof.
  destruct st as [|w|w]; cbn [dake_handle_auth_r]; intros H; try discriminate H.
  match type of H with match ?x with _ => _ end = _ => destruct x end; try discriminate H.
  apply (f_equal fst) in H. cbn [fst] in H. subst st'. reflexivity.
Qed.

(* The own profile must not have expired when it is made. *)
Lemma profile_new_fresh now p cp : profile_new C now p = Ok cp -> cp = p /\ (Z.of_N now < cp_expiration cp)%Z.
Proof.
  unfold profile_new. intros H.
  destruct (tag_verify _); cbn [bind] in H; try discriminate H.
  destruct (of_bool _); cbn [bind] in H; try discriminate H.
  destruct (of_bool _); cbn [bind] in H; try discriminate H.
  destruct (verify_versions _); cbn [bind] in H; try discriminate H.
  destruct (_ || _) eqn:E; [discriminate H|]. apply ok_inj in H. subst cp. split; [reflexivity|].
  apply orb_false_iff in E. lia.
Qed.
End WithCrypto.
