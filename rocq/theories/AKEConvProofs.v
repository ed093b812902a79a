(* Two clients running the OTRv3 key exchange (model: AKE.v, vocabulary: SpecAKE.v). *)
From Verif Require Import Base BaseLemmas Types Crypto CryptoProofs Encoding EncodingProofs Messages
  SpecWire AKE SpecAKE AKEProofs.
From Coq Require Import Lia ZifyBool ZifyNat ZifyN.
Local Open Scope N_scope.

Section WithCrypto.
Context (C : Crypto).
Context (PO : dh_params_ok C).

Lemma mpi_range_le a b : a <= b -> mpi_range b -> mpi_range a.
Proof.
  unfold mpi_range. intros H1 H2. pose proof (byte_len_bound b).
  assert (byte_len a <= byte_len b)%nat by (apply byte_len_le; lia). lia.
Qed.

Lemma dh_public_range x : mpi_range (dh_public (dh_new C x)).
Proof.
  destruct PO as (_ & Hp & HR). apply mpi_range_le with (c_dh_p C); [|exact HR].
  cbn [dh_new dh_new_custom dh_public]. apply N.lt_le_incl, modpow_lt. lia.
Qed.

Lemma shared_comm x y :
  dh_shared C (dh_new C x) (dh_public (dh_new C y)) = dh_shared C (dh_new C y) (dh_public (dh_new C x)).
Proof.
  destruct PO as (_ & Hp & _). unfold dh_shared. cbn [dh_new dh_new_custom dh_public dh_private].
  apply modpow_comm. lia.
Qed.

Lemma verify_ok y : dh_public_ok C y -> dh_verify_public_key C y = true.
Proof. intros H. apply dh_verify_iff; [apply PO|exact H]. Qed.

Definition secrets_of xa xb := ake_derive C (write_mpi (dh_shared C (dh_new C xa) (dh_public (dh_new C xb)))).

(* the Reveal Signature message of the initiator *)
Definition honest_reveal (ka : dsa_keypair) (na : bytes) (xa xb : N) (r : bytes) : reveal_sig :=
  let sc := secrets_of xa xb in
  let '(e, mc) := ake_prove C ka na (as_c sc) (as_m2 sc)
       (ake_m C (as_m1 sc) (dh_public (dh_new C xa)) (dh_public (dh_new C xb)) (dsa_pk ka) AKE_KEYID) in
  mkRevealSig r e mc.
Definition honest_sig (kb : dsa_keypair) (nb : bytes) (xa xb : N) : sig_msg :=
  let sc := secrets_of xa xb in
  let '(e, mc) := ake_prove C kb nb (as_cp sc) (as_m2p sc)
       (ake_m C (as_m1p sc) (dh_public (dh_new C xb)) (dh_public (dh_new C xa)) (dsa_pk kb) AKE_KEYID) in
  mkSigMsg e mc.
Definition honest_mat_a (kb : dsa_keypair) xa xb :=
  mkAkeMaterial (as_ssid (secrets_of xa xb)) (dh_new C xa) (dh_public (dh_new C xb)) (dsa_pk kb).
Definition honest_mat_b (ka : dsa_keypair) xa xb :=
  mkAkeMaterial (as_ssid (secrets_of xa xb)) (dh_new C xb) (dh_public (dh_new C xa)) (dsa_pk ka).

Lemma honest_agree ka kb xa xb : ake_agree C ka kb (honest_mat_a kb xa xb) (honest_mat_b ka xa xb).
Proof. repeat split. cbn [honest_mat_a honest_mat_b am_their_dh am_our_dh]. apply shared_comm. Qed.

Lemma dhkey_step ka na xa r xb :
  dh_public_ok C (dh_public (dh_new C xb)) ->
  ake_handle_dhkey C (Some ka) na (AkeAwaitingDHKey (dh_new C xa) r) (mkDHKey (dh_public (dh_new C xb)))
  = (AkeAwaitingSig (dh_new C xa) (dh_public (dh_new C xb))
       (dh_shared C (dh_new C xa) (dh_public (dh_new C xb))) (honest_reveal ka na xa xb r),
     Ok (honest_reveal ka na xa xb r)).
Proof.
  intros HY. cbn [ake_handle_dhkey dk_gy]. rewrite (verify_ok _ HY). cbn [negb].
  unfold honest_reveal. unfold secrets_of.
  destruct (ake_prove _ _ _ _ _ _) as [e mc]. reflexivity.
Qed.

Lemma dhkey_again host na our gy s prev :
  ake_handle_dhkey C host na (AkeAwaitingSig our gy s prev) (mkDHKey gy) = (AkeAwaitingSig our gy s prev, Ok prev).
Proof. cbn [ake_handle_dhkey dk_gy]. now rewrite N.eqb_refl. Qed.

Lemma reveal_step ka na kb nb xa r xb :
  dsa_key_ok C ka -> dh_public_ok C (dh_public (dh_new C xa)) ->
  any_nonzero (dc_gx_hashed (dhcommit_message C (dh_new C xa) r)) = true ->
  any_nonzero (rv_signature_mac (honest_reveal ka na xa xb r)) = true ->
  let c := dhcommit_message C (dh_new C xa) r in
  ake_handle_reveal C (Some kb) nb
    (AkeAwaitingRevealSig (dh_new C xb) (dc_gx_encrypted c) (dc_gx_hashed c)) (honest_reveal ka na xa xb r)
  = (AkeNone, Ok (honest_mat_b ka xa xb, honest_sig kb nb xa xb)).
Proof.
  intros KA HX Z1 Z2 c. unfold ake_handle_reveal.
  assert (E : reveal_result C (Some kb) nb (dh_new C xb) (dc_gx_encrypted c) (dc_gx_hashed c)
                (honest_reveal ka na xa xb r) = Ok (honest_mat_b ka xa xb, honest_sig kb nb xa xb));
    [|now rewrite E].
  unfold reveal_result. subst c. unfold honest_reveal in *.
  set (sc := secrets_of xa xb) in *.
  destruct (ake_prove C ka na _ _ _) as [e mc] eqn:EP.
  cbn [rv_key rv_signature_encrypted rv_signature_mac dhcommit_message dc_gx_encrypted dc_gx_hashed] in *.
  rewrite aes_crypt_involutive.
  assert (X1 : ct_compare (sha256 C (write_mpi (dh_public (dh_new C xa))))
                 (sha256 C (write_mpi (dh_public (dh_new C xa)))) = true) by (apply ct_compare_iff; auto).
  rewrite X1. cbn [check_ake bind].
  rewrite <- (app_nil_r (write_mpi (dh_public (dh_new C xa)))).
  rewrite read_mpi_write by apply dh_public_range. cbn [as_ake bind].
  rewrite (verify_ok _ HX). cbn [check_ake bind].
  rewrite shared_comm. fold (secrets_of xa xb). fold sc.
  destruct (prove_read C ka na _ _ _ _ _ KA EP) as (P1 & P2 & P3).
  assert (X2 : ct_compare (hmac160 C (as_m2 sc) (write_data e)) mc = true).
  { apply ct_compare_iff. rewrite <- P1. auto. }
  rewrite X2. cbn [check_ake bind]. rewrite P2. cbn [bind]. rewrite P3. cbn [as_ake bind].
  unfold honest_sig. fold sc. destruct (ake_prove C kb nb _ _ _) as [e2 mc2]. reflexivity.
Qed.

Lemma signature_step ka na kb nb xa r xb :
  dsa_key_ok C kb -> any_nonzero (sg_signature_mac (honest_sig kb nb xa xb)) = true ->
  ake_handle_signature C
    (AkeAwaitingSig (dh_new C xa) (dh_public (dh_new C xb))
       (dh_shared C (dh_new C xa) (dh_public (dh_new C xb))) (honest_reveal ka na xa xb r))
    (honest_sig kb nb xa xb) = (AkeNone, Ok (honest_mat_a kb xa xb)).
Proof.
  intros KB Z. unfold ake_handle_signature.
  assert (E : signature_result C (dh_new C xa) (dh_public (dh_new C xb))
                (dh_shared C (dh_new C xa) (dh_public (dh_new C xb))) (honest_sig kb nb xa xb)
              = Ok (honest_mat_a kb xa xb)); [|now rewrite E].
  unfold signature_result. fold (secrets_of xa xb). unfold honest_sig in *.
  set (sc := secrets_of xa xb) in *.
  destruct (ake_prove C kb nb _ _ _) as [e mc] eqn:EP. cbn [sg_signature_encrypted sg_signature_mac] in *.
  destruct (prove_read C kb nb _ _ _ _ _ KB EP) as (P1 & P2 & P3).
  assert (X2 : ct_compare mc (hmac160 C (as_m2p sc) (write_data e)) = true).
  { apply ct_compare_iff. rewrite <- P1. auto. }
  rewrite X2. cbn [check_ake bind]. rewrite P2. cbn [bind done as_ake]. rewrite P3. reflexivity.
Qed.

Lemma initiate_ok x r : x <> 0 ->
  ake_initiate C x r = Ok (AkeAwaitingDHKey (dh_new C x) r, dhcommit_message C (dh_new C x) r).
Proof. intros H. unfold ake_initiate, dh_generate. destruct (N.eqb_spec x 0); [contradiction|]. reflexivity. Qed.

Lemma commit_step st m rnd : rnd <> 0 -> answers C st m ->
  ake_handle_dhcommit C st m rnd
  = (AkeAwaitingRevealSig (dh_new C rnd) (dc_gx_encrypted m) (dc_gx_hashed m),
     Ok (ReplyKey (mkDHKey (dh_public (dh_new C rnd))))).
Proof.
  intros HR HA.
  assert (F : dhcommit_from_initial C st m rnd
    = (AkeAwaitingRevealSig (dh_new C rnd) (dc_gx_encrypted m) (dc_gx_hashed m),
       Ok (ReplyKey (mkDHKey (dh_public (dh_new C rnd)))))).
  { unfold dhcommit_from_initial, dh_generate. destruct (N.eqb_spec rnd 0); [contradiction|]. reflexivity. }
  destruct st as [|our r|our ge gh|our gy s p]; cbn [ake_handle_dhcommit answers] in *;
    [exact F| |contradiction|exact F].
  destruct (N.ltb_spec (be_val (dc_gx_hashed m)) (be_val (sha256 C (write_mpi (dh_public our))))); [lia|exact F].
Qed.

Lemma agreement ka kb xa r xb na nb b0 :
  dsa_key_ok C ka -> dsa_key_ok C kb -> xa <> 0 -> xb <> 0 ->
  dh_public_ok C (dh_public (dh_new C xa)) -> dh_public_ok C (dh_public (dh_new C xb)) ->
  exists a1 commit, ake_initiate C xa r = Ok (a1, commit) /\
  (any_nonzero (dc_gx_hashed commit) = true -> answers C b0 commit ->
   exists b1 key, ake_handle_dhcommit C b0 commit xb = (b1, Ok (ReplyKey key)) /\
   exists a2 reveal, ake_handle_dhkey C (Some ka) na a1 key = (a2, Ok reveal) /\
   (any_nonzero (rv_signature_mac reveal) = true ->
    exists mb sg, ake_handle_reveal C (Some kb) nb b1 reveal = (AkeNone, Ok (mb, sg)) /\
    (any_nonzero (sg_signature_mac sg) = true ->
     exists ma, ake_handle_signature C a2 sg = (AkeNone, Ok ma) /\
     am_our_dh ma = dh_new C xa /\ am_our_dh mb = dh_new C xb /\ ake_agree C ka kb ma mb))).
Proof.
  intros KA KB NA NB HA HB. do 2 eexists. split; [now apply initiate_ok|]. intros Z1 AN.
  do 2 eexists. split; [now apply commit_step|].
  do 2 eexists. split; [now apply dhkey_step|]. intros Z2.
  do 2 eexists. split; [now apply reveal_step|]. intros Z3.
  eexists. split; [now apply signature_step|]. repeat split. apply shared_comm.
Qed.

(* a client with a DSA key never crashes on a message of the exchange *)
Lemma receive_safe k rnd nonce st m : rnd <> 0 -> ake_receive C (Some k) rnd nonce st m <> None.
Proof.
  intros NZ. destruct m; cbn [ake_receive]; try discriminate.
  - assert (F : forall st0 m0, dhcommit_from_initial C st0 m0 rnd
              = (AkeAwaitingRevealSig (dh_new C rnd) (dc_gx_encrypted m0) (dc_gx_hashed m0),
                 Ok (ReplyKey (mkDHKey (dh_public (dh_new C rnd)))))).
    { intros. unfold dhcommit_from_initial, dh_generate. destruct (N.eqb_spec rnd 0); [contradiction|]. reflexivity. }
    destruct st; cbn [ake_handle_dhcommit]; rewrite ?F; try discriminate. destruct (_ <? _); discriminate.
  - destruct st; cbn [ake_handle_dhkey]; try discriminate.
    + destruct (negb _); [discriminate|]. destruct (ake_prove _ _ _ _ _ _). discriminate.
    + destruct (negb _); discriminate.
  - destruct st; cbn [ake_handle_reveal]; try discriminate.
    destruct (reveal_result _ _ _ _ _ _ _) as [[? ?]|?|] eqn:E; try discriminate. now apply reveal_result_safe in E.
  - destruct st; cbn [ake_handle_signature]; try discriminate.
    destruct (signature_result _ _ _ _ _) eqn:E; try discriminate. now apply signature_result_safe in E.
Qed.

(** ** both sides start at the same time *)

Section Tie.
Context (ka kb : dsa_keypair) (KA : dsa_key_ok C ka) (KB : dsa_key_ok C kb).
Context (xa xb : N) (ra rb : bytes).
Let A := dh_new C xa.
Let cA := dhcommit_message C A ra.
Let B0 := dh_new C xb.
Let cB := dhcommit_message C B0 rb.
Context (HA : dh_public_ok C (dh_public A)).
Context (WIN : be_val (dc_gx_hashed cB) < be_val (dc_gx_hashed cA)).

(* A's state, and what A sent, after i of the messages; y is B's new secret *)
Definition a_state (i : nat) y na : ake_state :=
  match i with
  | O | 1%nat => AkeAwaitingDHKey A ra
  | 2%nat | 3%nat => AkeAwaitingSig A (dh_public (dh_new C y)) (dh_shared C A (dh_public (dh_new C y)))
                       (honest_reveal ka na xa y ra)
  | _ => AkeNone
  end.
Definition a_out (i : nat) y na : list encoded_type :=
  firstn (S i) [MDHCommit cA; MDHCommit cA; MRevealSig (honest_reveal ka na xa y ra);
                MRevealSig (honest_reveal ka na xa y ra)].
Definition b_state (j : nat) y : ake_state :=
  match j with
  | O => AkeAwaitingDHKey B0 rb
  | 1%nat | 2%nat => AkeAwaitingRevealSig (dh_new C y) (dc_gx_encrypted cA) (dc_gx_hashed cA)
  | _ => AkeNone
  end.
Definition b_out (j : nat) y nb : list encoded_type :=
  firstn (S j) [MDHCommit cB; MDHKey (mkDHKey (dh_public (dh_new C y)));
                MDHKey (mkDHKey (dh_public (dh_new C y))); MSignature (honest_sig kb nb xa y)].
Definition a_done i y := match i with O | 1%nat | 2%nat | 3%nat => [] | _ => [honest_mat_a kb xa y] end.
Definition b_done j y := match j with O | 1%nat | 2%nat => [] | _ => [honest_mat_b ka xa y] end.

Definition tie_inv (s : ake_net) : Prop :=
  exists i j y na nb, (i <= 4)%nat /\ (j <= 4)%nat /\
    (i <= length (b_out j y nb))%nat /\ (j <= length (a_out i y na))%nat /\
    an_a s = a_state i y na /\ an_b s = b_state j y /\
    an_ab s = skipn j (a_out i y na) /\ an_ba s = skipn i (b_out j y nb) /\
    an_done_a s = a_done i y /\ an_done_b s = b_done j y.

Lemma tie_start s :
  an_a s = AkeAwaitingDHKey A ra -> an_b s = AkeAwaitingDHKey B0 rb ->
  an_ab s = [MDHCommit cA] -> an_ba s = [MDHCommit cB] -> an_done_a s = [] -> an_done_b s = [] -> tie_inv s.
Proof. intros. exists O, O, 1, [], []. cbn. repeat split; auto; lia. Qed.

Lemma b_answers : answers C (AkeAwaitingDHKey B0 rb) cA.
Proof. exact (N.lt_le_incl _ _ WIN). Qed.

Lemma b_first rnd nonce st out done :
  ake_receive C (Some kb) rnd nonce (AkeAwaitingDHKey B0 rb) (MDHCommit cA) = Some (st, out, done) ->
  st = AkeAwaitingRevealSig (dh_new C rnd) (dc_gx_encrypted cA) (dc_gx_hashed cA) /\
  out = [MDHKey (mkDHKey (dh_public (dh_new C rnd)))] /\ done = [].
Proof.
  unfold ake_receive. destruct (N.eq_dec rnd 0) as [->|NZ].
  - unfold ake_handle_dhcommit. destruct (N.ltb_spec (be_val (dc_gx_hashed cA)) (be_val (sha256 C (write_mpi (dh_public B0))))) as [L|L];
      [|discriminate]. exfalso. exact (N.lt_irrefl _ (N.lt_trans _ _ _ L WIN)).
  - rewrite (commit_step _ _ _ NZ b_answers). intros [= <- <- <-]. auto.
Qed.

Lemma a_first rnd nonce :
  ake_receive C (Some ka) rnd nonce (AkeAwaitingDHKey A ra) (MDHCommit cB)
  = Some (AkeAwaitingDHKey A ra, [MDHCommit cA], []).
Proof.
  unfold ake_receive, ake_handle_dhcommit.
  destruct (N.ltb_spec (be_val (dc_gx_hashed cB)) (be_val (sha256 C (write_mpi (dh_public A))))) as [L|L]; [reflexivity|].
  exfalso. exact (N.lt_irrefl _ (N.lt_le_trans _ _ _ WIN L)).
Qed.

Lemma b_reveal rnd y na nonce : any_nonzero (dc_gx_hashed cA) = true ->
  any_nonzero (rv_signature_mac (honest_reveal ka na xa y ra)) = true ->
  ake_receive C (Some kb) rnd nonce (AkeAwaitingRevealSig (dh_new C y) (dc_gx_encrypted cA) (dc_gx_hashed cA))
    (MRevealSig (honest_reveal ka na xa y ra))
  = Some (AkeNone, [MSignature (honest_sig kb nonce xa y)], [honest_mat_b ka xa y]).
Proof.
  intros ZA U. unfold ake_receive. pose proof (reveal_step ka na kb nonce xa ra y KA HA ZA U) as RS.
  cbn zeta in RS. fold A in RS. fold cA in RS. now rewrite RS.
Qed.
Lemma a_sig rnd y na nb nonce :
  any_nonzero (sg_signature_mac (honest_sig kb nb xa y)) = true ->
  ake_receive C (Some ka) rnd nonce (AkeAwaitingSig A (dh_public (dh_new C y))
       (dh_shared C A (dh_public (dh_new C y))) (honest_reveal ka na xa y ra)) (MSignature (honest_sig kb nb xa y))
  = Some (AkeNone, [], [honest_mat_a kb xa y]).
Proof.
  intros U. unfold ake_receive. pose proof (signature_step ka na kb nb xa ra y KB U) as RS.
  fold A in RS. now rewrite RS.
Qed.
Lemma a_key rnd y nonce : dh_public_ok C (dh_public (dh_new C y)) ->
  ake_receive C (Some ka) rnd nonce (AkeAwaitingDHKey A ra) (MDHKey (mkDHKey (dh_public (dh_new C y))))
  = Some (AkeAwaitingSig A (dh_public (dh_new C y)) (dh_shared C A (dh_public (dh_new C y)))
            (honest_reveal ka nonce xa y ra), [MRevealSig (honest_reveal ka nonce xa y ra)], []).
Proof.
  intros U. unfold ake_receive. pose proof (dhkey_step ka nonce xa ra y U) as RS. fold A in RS. now rewrite RS.
Qed.

Ltac kill Ci Cj := try (exfalso; cbn [length a_out b_out firstn] in Ci, Cj; lia).
Ltac fin := cbn [length a_out b_out firstn skipn app a_state b_state a_done b_done]; repeat split; try lia; try assumption; try reflexivity.

Lemma tie_step s s' : any_nonzero (dc_gx_hashed cA) = true -> tie_inv s -> ake_step C ka kb s s' -> tie_inv s'.
Proof.
  intros ZA (i & j & y & na & nb & Hi & Hj & Ci & Cj & Ea & Eb & Qab & Qba & Da & Db) ST.
  destruct ST as [s m r rnd nonce st out done Q U R|s m r rnd nonce st out done Q U R];
    destruct s as [sa sb qab qba da db]; cbn [an_a an_b an_ab an_ba an_done_a an_done_b] in *; subst.
  - destruct j as [|[|[|[|[|j]]]]]; [| | | | |lia].
    + destruct i as [|[|i]]; [| |kill Ci Cj]; cbn [a_out firstn skipn] in Q; injection Q as <- <-;
        destruct (b_first _ _ _ _ _ R) as (-> & -> & ->).
      * exists O, 1%nat, rnd, na, nb. fin.
      * exists 1%nat, 1%nat, rnd, na, nb. fin.
    + destruct i as [|[|[|i]]]; [discriminate Q| | |kill Ci Cj];
        cbn [a_out firstn skipn] in Q; injection Q as <- <-;
        cbn [ake_receive b_state ake_handle_dhcommit] in R; injection R as <- <- <-.
      * exists 1%nat, 2%nat, y, na, nb. fin.
      * exists 2%nat, 2%nat, y, na, nb. fin.
    + destruct i as [|[|[|[|i]]]]; [discriminate Q|discriminate Q| | |kill Ci Cj];
        cbn [a_out firstn skipn] in Q; injection Q as <- <-;
        cbn [b_state unexceptional] in R, U; rewrite (b_reveal _ _ _ _ ZA U) in R; injection R as <- <- <-.
      * exists 2%nat, 3%nat, y, na, nonce. fin.
      * exists 3%nat, 3%nat, y, na, nonce. fin.
    + destruct i as [|[|[|[|[|i]]]]]; try discriminate Q; [| |lia]; kill Ci Cj;
        cbn [a_out firstn skipn] in Q; injection Q as <- <-;
        cbn [ake_receive b_state ake_handle_reveal] in R; injection R as <- <- <-.
      * exists 3%nat, 4%nat, y, na, nb. fin.
      * exists 4%nat, 4%nat, y, na, nb. fin.
    + destruct i as [|[|[|[|[|i]]]]]; try discriminate Q; lia.
  - destruct i as [|[|[|[|[|i]]]]]; [| | | | |lia].
    + destruct j as [|[|j]]; [| |kill Ci Cj]; cbn [b_out firstn skipn] in Q; injection Q as <- <-;
        cbn [a_state] in R; rewrite a_first in R; injection R as <- <- <-.
      * exists 1%nat, O, y, na, nb. fin.
      * exists 1%nat, 1%nat, y, na, nb. fin.
    + destruct j as [|[|[|j]]]; [discriminate Q| | |kill Ci Cj];
        cbn [b_out firstn skipn] in Q; injection Q as <- <-;
        cbn [a_state unexceptional dk_gy] in R, U; rewrite (a_key _ _ _ U) in R;
        injection R as <- <- <-.
      * exists 2%nat, 1%nat, y, nonce, nb. fin.
      * exists 2%nat, 2%nat, y, nonce, nb. fin.
    + destruct j as [|[|[|[|j]]]]; [discriminate Q|discriminate Q| | |kill Ci Cj];
        cbn [b_out firstn skipn] in Q; injection Q as <- <-;
        cbn [ake_receive a_state] in R; rewrite dhkey_again in R;
        injection R as <- <- <-.
      * exists 3%nat, 2%nat, y, na, nb. fin.
      * exists 3%nat, 3%nat, y, na, nb. fin.
    + destruct j as [|[|[|[|[|j]]]]]; try discriminate Q; [| |lia]; kill Ci Cj;
        cbn [b_out firstn skipn] in Q; injection Q as <- <-;
        cbn [a_state unexceptional] in R, U; rewrite (a_sig _ _ _ _ _ U) in R;
        injection R as <- <- <-.
      * exists 4%nat, 3%nat, y, na, nb. fin.
      * exists 4%nat, 4%nat, y, na, nb. fin.
    + destruct j as [|[|[|[|[|j]]]]]; try discriminate Q; lia.
Qed.

Lemma tie_end s : tie_inv s -> an_ab s = [] -> an_ba s = [] ->
  an_a s = AkeNone /\ an_b s = AkeNone /\
  exists ma mb, an_done_a s = [ma] /\ an_done_b s = [mb] /\ ake_agree C ka kb ma mb /\ am_our_dh ma = dh_new C xa.
Proof.
  intros (i & j & y & na & nb & Hi & Hj & Ci & Cj & Ea & Eb & Qab & Qba & Da & Db) E1 E2.
  rewrite E1 in Qab. rewrite E2 in Qba.
  assert (i = 4%nat /\ j = 4%nat) as [-> ->].
  { destruct i as [|[|[|[|[|i]]]]], j as [|[|[|[|[|j]]]]]; try discriminate Qab; try discriminate Qba;
      try lia; auto. }
  split; [exact Ea|]. split; [exact Eb|]. do 2 eexists. split; [exact Da|]. split; [exact Db|].
  split; [apply honest_agree|reflexivity].
Qed.

End Tie.
End WithCrypto.
