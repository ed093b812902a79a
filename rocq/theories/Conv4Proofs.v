(* Two OTRv4 clients over a lossy, ordered network: the ratchets stay in step. *)
From Coq Require Import Lia ZifyN ZifyNat.
From Verif Require Import Base BaseLemmas Types Crypto CryptoProofs Encoding EncodingProofs ClientProfile Messages
  KeyManager KeyManagerProofs DataV3 DataV3Proofs History3Proofs Ratchet DataV4 SpecCurve EdGroup SpecData4 DataV4Proofs
  History4Proofs.
Local Open Scope N_scope.

Section WithCrypto.
Context (C : Crypto) (G : groups_ok4 C).

Definition ec_pub (d : double_ratchet) : point := ec_public (mx_ecdh (dr_shared d)).
Definition dh_pub (d : double_ratchet) : N := dh3_public (mx_dh (dr_shared d)).

Definition own_keys (d : double_ratchet) : Prop :=
  (exists e, mx_ecdh (dr_shared d) = ecdh_of_secret C e) /\
  (exists r, mx_dh (dr_shared d) = dh3_generate C r).

(* D knows E's current public keys *)
Definition knows (d e : double_ratchet) : Prop :=
  mx_public_ecdh (dr_shared d) = ec_pub e /\ mx_public_dh (dr_shared d) = dh_pub e.

Definition on_chain (r : ratchet) (base : bytes) : Prop :=
  ra_chain_key r = chain4 C base (N.to_nat (ra_message_id r)).

Lemma shared_agree e1 e2 :
  ecdh_shared C (ecdh_of_secret C e1) (ec_public (ecdh_of_secret C e2))
  = ecdh_shared C (ecdh_of_secret C e2) (ec_public (ecdh_of_secret C e1)).
Proof. destruct G as (E & _). now apply base_mul_comm. Qed.

Lemma dh3_agree r1 r2 :
  dh3_shared C (dh3_generate C r1) (dh3_public (dh3_generate C r2))
  = dh3_shared C (dh3_generate C r2) (dh3_public (dh3_generate C r1)).
Proof. destruct G as (_ & P & _). apply modpow_comm. exact P. Qed.

Lemma mixed_agree e1 r1 e2 r2 third brace s1 :
  let x1 := ecdh_of_secret C e1 in let y1 := dh3_generate C r1 in
  let x2 := ecdh_of_secret C e2 in let y2 := dh3_generate C r2 in
  mixed_next C x1 y1 (ec_public x2) (dh3_public y2) third brace = Ok s1 ->
  pt_verify C (ec_public x1) = true -> dh3_verify C (dh3_public y1) = true ->
  exists s2, mixed_next C x2 y2 (ec_public x1) (dh3_public y1) third brace = Ok s2 /\
    mx_brace_key s2 = mx_brace_key s1 /\ mx_k s2 = mx_k s1.
Proof.
  intros x1 y1 x2 y2 E V1 V2. apply mixed_next_ok in E.
  destruct E as (_ & _ & _ & _ & _ & _ & Z1 & Z2 & B & K).
  destruct (mixed_next_total C x2 y2 (ec_public x1) (dh3_public y1) third brace V1 V2) as [s2 E2].
  - unfold x1, x2 in *. rewrite shared_agree. exact Z1.
  - exact Z2.
  - exists s2. split; [exact E2|]. apply mixed_next_ok in E2.
    destruct E2 as (_ & _ & _ & _ & _ & _ & _ & _ & B2 & K2).
    assert (BB : mx_brace_key s2 = mx_brace_key s1).
    { rewrite B, B2. destruct third; [|reflexivity]. unfold y1, y2. now rewrite dh3_agree. }
    split; [exact BB|]. rewrite K, K2, BB. unfold x1, x2. now rewrite shared_agree.
Qed.

(** ** Messages under way to Q (from P) *)

Definition protected (sp rp : N) (m : data4) (text : bytes) (ck : bytes) : Prop :=
  all_zero ck = false /\
  d4_encrypted m = chacha_crypt C (extract_encryption_key (enc_key4 C ck)) text /\
  d4_authenticator m = kdf2 C 64 USAGE_AUTHENTICATOR (mac_key4 C ck) (encode_authenticator_data4 sp rp m) /\
  any_nonzero (d4_authenticator m) = true /\ d4_j m < 4294967295.

(* too old: refused *)
Definition dead (q : double_ratchet) (m : data4) : Prop := d4_i m + 1 < dr_i q.
(* in Q's receiving ratchet *)
Definition current (sp rp : N) (q : double_ratchet) (m : data4) (text : bytes) : Prop :=
  d4_i m + 1 = dr_i q /\ ra_message_id (dr_receiver q) <= d4_j m /\
  protected sp rp m text (chain4 C (ra_chain_key (dr_receiver q)) (N.to_nat (d4_j m - ra_message_id (dr_receiver q)))).
(* in the ratchet that P started and Q has not seen *)
Definition ahead (sp rp : N) (p q : double_ratchet) (m : data4) (text : bytes) : Prop :=
  d4_i m = dr_i q /\ dr_i p = dr_i q + 1 /\ dr_next q = RECEIVER /\
  d4_ecdh m = ec_pub p /\ d4_dh m = (if dr_i q mod 3 =? 0 then Some (dh_pub p) else None) /\
  pt_verify C (ec_pub p) = true /\
  (dr_i q mod 3 =? 0 = true -> dh3_verify C (dh_pub p) = true) /\
  protected sp rp m text
    (chain4 C (kdf2 C 64 USAGE_CHAIN_KEY (dr_root_key q) (mx_k (dr_shared p))) (N.to_nat (d4_j m))).

Definition on_way4 (sp rp : N) (p q : double_ratchet) (x : data4 * bytes) : Prop :=
  dead q (fst x) \/ current sp rp q (fst x) (snd x) \/ ahead sp rp p q (fst x) (snd x).

Fixpoint ordered4 (q : list (data4 * bytes)) : Prop :=
  match q with
  | [] => True
  | x :: r => Forall (fun y => before4 (fst x) (fst y)) r /\ ordered4 r
  end.

(* the position of the next message that P sends is beyond *)
Definition sent_before (p : double_ratchet) (m : data4) : Prop :=
  if selector_eqb (dr_next p) SENDER then d4_i m < dr_i p
  else d4_i m < dr_i p - 1 \/ (d4_i m = dr_i p - 1 /\ d4_j m < ra_message_id (dr_sender p)).

Definition flight (sp rp : N) (p q : double_ratchet) (l : list (data4 * bytes)) : Prop :=
  Forall (on_way4 sp rp p q) l /\ ordered4 l /\ Forall (fun x => sent_before p (fst x)) l.

(** ** The two ratchets *)

Definition linked (p q : double_ratchet) : Prop :=
  exists base, on_chain (dr_sender p) base /\ on_chain (dr_receiver q) base /\
    ra_message_id (dr_receiver q) <= ra_message_id (dr_sender p).

(* X is to start the next ratchet *)
Definition stateE (x y : double_ratchet) : Prop :=
  dr_i x = dr_i y /\ 0 < dr_i x /\ dr_next x = SENDER /\ dr_next y = RECEIVER /\
  dr_root_key x = dr_root_key y /\ mx_brace_key (dr_shared x) = mx_brace_key (dr_shared y) /\
  knows x y /\ knows y x /\ linked y x.

(* X has started a ratchet that Y has not seen *)
Definition stateD (x y : double_ratchet) : Prop :=
  dr_i x = dr_i y + 1 /\ dr_next x = RECEIVER /\ dr_next y = RECEIVER /\
  knows x y /\
  mixed_next C (mx_ecdh (dr_shared x)) (mx_dh (dr_shared x)) (ec_pub y) (dh_pub y) (dr_i y mod 3 =? 0)
    (mx_brace_key (dr_shared y)) = Ok (dr_shared x) /\
  dr_root_key x = kdf2 C 64 USAGE_ROOT_KEY (dr_root_key y) (mx_k (dr_shared x)) /\
  on_chain (dr_sender x) (kdf2 C 64 USAGE_CHAIN_KEY (dr_root_key y) (mx_k (dr_shared x))) /\
  ((dr_i y mod 3 =? 0) = false -> mx_public_dh (dr_shared y) = dh_pub x) /\
  dh3_verify C (mx_public_dh (dr_shared y)) = true /\
  (dr_i y = 0 -> linked y x /\ ra_message_id (dr_receiver y) = 0).

Definition small (d : double_ratchet) : Prop :=
  dr_i d <= 4294967295 /\ ra_message_id (dr_sender d) <= 4294967295.

Definition inv4 (sx sy : N) (x y : double_ratchet) (xy yx : list (data4 * bytes)) : Prop :=
  own_keys x /\ own_keys y /\ small x /\ small y /\
  dh3_verify C (mx_public_dh (dr_shared x)) = true /\ dh3_verify C (mx_public_dh (dr_shared y)) = true /\
  flight sx sy x y xy /\ flight sy sx y x yx /\
  (stateE x y \/ stateE y x \/ stateD x y \/ stateD y x).

Lemma inv4_sym sx sy x y xy yx : inv4 sx sy x y xy yx -> inv4 sy sx y x yx xy.
Proof. unfold inv4. tauto. Qed.

Lemma ordered4_app l m t : ordered4 l -> Forall (fun x => before4 (fst x) m) l -> ordered4 (l ++ [(m, t)]).
Proof.
  induction l as [|x l IH]; intros O F; cbn; [auto|]. destruct O as [O1 O2].
  inversion F as [|? ? F1 F2]; subst. split; [|auto]. apply Forall_app. split; [exact O1|].
  constructor; [exact F1|constructor].
Qed.

Lemma flight_tail sp rp p q x l : flight sp rp p q (x :: l) -> flight sp rp p q l.
Proof.
  intros (F & O & S). inversion F; subst. inversion S; subst. destruct O as [_ O]. repeat split; assumption.
Qed.

(** ** Sending *)

Definition same_side (p p' : double_ratchet) : Prop :=
  dr_i p' = dr_i p /\ dr_shared p' = dr_shared p /\ dr_root_key p' = dr_root_key p /\
  dr_receiver p' = dr_receiver p /\ dr_next p' = dr_next p.

Lemma on_chain_step r base :
  on_chain r base ->
  on_chain (mkRatchet (kdf C 64 USAGE_NEXT_CHAIN_KEY (ra_chain_key r)) (ra_message_id r + 1)) base.
Proof.
  unfold on_chain. cbn [ra_chain_key ra_message_id]. intros ->.
  replace (N.to_nat (ra_message_id r + 1)) with (S (N.to_nat (ra_message_id r))) by lia. reflexivity.
Qed.

(* sending without a new ratchet *)
Lemma send_same {extra} sx sy x y xy yx ig text rnd m x' :
  inv4 sx sy x y xy yx -> dr_next x = RECEIVER ->
  encrypt4 C sx sy x ig text extra rnd = Ok (m, x') ->
  inv4 sx sy x' y (xy ++ [(m, text)]) yx /\
  ((stateE y x /\ current sx sy y m text) \/ (stateD x y /\ ahead sx sy x y m text) \/
   (stateD y x /\ dr_i x = 0 /\ current sx sy y m text) \/ (stateD y x /\ dr_i x <> 0 /\ dead y m)) /\
  (stateE y x -> stateE y x') /\ (stateD x y -> stateD x' y) /\ (stateD y x -> stateD y x').
Proof.
  intros (KX & KY & [SX1 SX2] & SY & VX & VY & (FX & OX & BX) & (FY & OY & BY) & ST) NX E.
  apply encrypt4_ok in E.
  destruct E as (d1 & rv & R & _ & Z & NE & EX & _ & _ & I & J & EC & DH & EN & AU & _ & VA).
  destruct R as [_|d1 NX' _]; [|congruence].
  apply validate4_ok in VA. destruct VA as (_ & DV & PV & ANZ & _).
  set (ck := ra_chain_key (dr_sender x)) in *.
  assert (PR : protected sx sy m text ck).
  { split; [exact Z|]. split; [exact EN|]. split; [exact AU|]. split; [exact ANZ|]. lia. }
  assert (SB : Forall (fun z => before4 (fst z) m) xy).
  { eapply Forall_impl; [|exact BX]. intros z. unfold sent_before, before4. rewrite NX. cbn [selector_eqb].
    rewrite I, J. lia. }
  assert (NOW : (stateE y x /\ current sx sy y m text) \/ (stateD x y /\ ahead sx sy x y m text) \/
     (stateD y x /\ dr_i x = 0 /\ current sx sy y m text) \/ (stateD y x /\ dr_i x <> 0 /\ dead y m)).
  { destruct ST as [ST|[ST|[ST|ST]]].
    - destruct ST as (_ & _ & Q & _). congruence.
    - left. split; [exact ST|]. destruct ST as (I1 & I2 & _ & _ & _ & _ & _ & _ & base & C1 & C2 & LE).
      split; [lia|]. split; [lia|]. rewrite C2, chain4_add.
      replace (_ + _)%nat with (N.to_nat (ra_message_id (dr_sender x))) by lia. now rewrite <- C1.
    - right. left. split; [exact ST|].
      destruct ST as (I1 & _ & NY & _ & _ & _ & C1 & _).
      assert (IY : d4_i m = dr_i y) by lia.
      rewrite IY in DH.
      split; [exact IY|]. split; [exact I1|]. split; [exact NY|]. split; [exact EC|]. split; [exact DH|].
      split; [unfold ec_pub; now rewrite <- EC|]. split; [intros T; apply DV; now rewrite DH, T|].
      unfold on_chain in C1. rewrite J, <- C1. exact PR.
    - right. right. destruct (N.eq_dec (dr_i x) 0) as [Z0|NZ].
      + left. split; [exact ST|]. split; [exact Z0|].
        destruct ST as (I1 & _ & _ & _ & _ & _ & _ & _ & _ & L). destruct (L Z0) as [(base & C1 & C2 & LE) _].
        split; [lia|]. split; [lia|]. rewrite C2, chain4_add.
        replace (_ + _)%nat with (N.to_nat (ra_message_id (dr_sender x))) by lia. now rewrite <- C1.
      + right. split; [exact ST|]. split; [exact NZ|]. destruct ST as (I1 & _). unfold dead. lia. }
  assert (ON : on_way4 sx sy x' y (m, text)).
  { unfold on_way4. cbn [fst snd]. destruct NOW as [[_ H]|[[_ H]|[(_ & _ & H)|(_ & _ & H)]]]; auto.
    right. right. subst x'. exact H. }
  assert (EQ : stateE y x -> stateE y x').
  { subst x'. unfold stateE, knows, linked, ec_pub, dh_pub. cbn. intros (H1 & H2 & H3 & H4 & H5 & H6 & H7 & H8 & base & C1 & C2 & LE).
    repeat split; try tauto. exists base. split; [now apply on_chain_step|]. split; [exact C2|]. cbn. lia. }
  assert (DQ : stateD x y -> stateD x' y).
  { subst x'. unfold stateD, knows, linked, ec_pub, dh_pub. cbn.
    intros (H1 & H2 & H3 & H4 & H5 & H6 & H7 & H8 & H9 & H10).
    split; [exact H1|]. split; [exact H2|]. split; [exact H3|]. split; [exact H4|]. split; [exact H5|].
    split; [exact H6|]. split; [now apply on_chain_step|]. split; [exact H8|]. split; [exact H9|exact H10]. }
  assert (DQ' : stateD y x -> stateD y x').
  { subst x'. unfold stateD, knows, linked, ec_pub, dh_pub. cbn.
    intros (H1 & H2 & H3 & H4 & H5 & H6 & H7 & H8 & H9 & H10).
    split; [exact H1|]. split; [exact H2|]. split; [exact H3|]. split; [exact H4|]. split; [exact H5|].
    split; [exact H6|]. split; [exact H7|]. split; [exact H8|]. split; [exact H9|].
    intros Z0. destruct (H10 Z0) as [(base & C1 & C2 & LE) K]. split; [|exact K].
    exists base. split; [now apply on_chain_step|]. split; [exact C2|]. cbn. lia. }
  split; [|auto].
  assert (X' : dr_shared x' = dr_shared x /\ dr_i x' = dr_i x /\ dr_next x' = dr_next x /\
               dr_receiver x' = dr_receiver x /\ dr_root_key x' = dr_root_key x /\
               ra_message_id (dr_sender x') = ra_message_id (dr_sender x) + 1) by (subst x'; cbn; auto 10).
  destruct X' as (X1 & X2 & X3 & X4 & X5 & X6).
  split; [unfold own_keys in *; now rewrite X1|]. split; [exact KY|].
  split; [split; [lia|rewrite X6; lia]|]. split; [exact SY|]. split; [now rewrite X1|]. split; [exact VY|].
  split; [|split; [|tauto]].
  - split; [|split].
    + apply Forall_app. split; [|constructor; [exact ON|constructor]].
      eapply Forall_impl; [|exact FX]. intros z. unfold on_way4, ahead, ec_pub, dh_pub. now rewrite X1, X2.
    + apply ordered4_app; assumption.
    + apply Forall_app. split.
      * eapply Forall_impl; [|exact BX]. intros z. unfold sent_before. rewrite X2, X3, X6, NX. cbn [selector_eqb].
        lia.
      * constructor; [|constructor]. cbn [fst]. unfold sent_before. rewrite X2, X3, X6, NX. cbn [selector_eqb]. lia.
  - split; [|split; [exact OY|exact BY]].
    eapply Forall_impl; [|exact FY]. intros z. unfold on_way4, dead, current, ahead. now rewrite X2, X3, X4, X5.
Qed.

(* starting a new ratchet *)
Lemma send_new {extra} sx sy x y xy yx ig text rnd m x' :
  inv4 sx sy x y xy yx -> dr_next x = SENDER ->
  encrypt4 C sx sy x ig text extra rnd = Ok (m, x') ->
  inv4 sx sy x' y (xy ++ [(m, text)]) yx /\ stateE x y /\ stateD x' y /\ ahead sx sy x' y m text.
Proof.
  intros (KX & KY & [SX1 SX2] & SY & VX & VY & (FX & OX & BX) & (FY & OY & BY) & ST) NX E.
  assert (SE : stateE x y).
  { destruct ST as [ST|[ST|[ST|ST]]]; [exact ST| | |].
    - destruct ST as (_ & _ & _ & Q & _). congruence.
    - destruct ST as (_ & Q & _). congruence.
    - destruct ST as (_ & _ & Q & _). congruence. }
  clear ST.
  apply encrypt4_ok in E.
  destruct E as (d1 & rv & R & _ & Z & NE & EX & _ & _ & I & J & EC & DH & EN & AU & _ & VA).
  destruct R as [NX'|d1 _ RS]; [congruence|].
  apply rotate_sender_ok in RS. cbn [fst dr_collect_reveals dr_next dr_shared dr_i dr_root_key dr_receiver
    dr_sender dr_reveals] in RS.
  destruct RS as (ecdh & sh & _ & EG & X & ED & NI).
  apply validate4_ok in VA. destruct VA as (_ & DV & PV & ANZ & _).
  assert (SH : dr_shared d1 = sh /\ dr_i d1 = dr_i x + 1 /\ dr_next d1 = RECEIVER /\
     dr_receiver d1 = dr_receiver x /\
     dr_sender d1 = mkRatchet (kdf2 C 64 USAGE_CHAIN_KEY (dr_root_key x) (mx_k sh)) 0 /\
     dr_root_key d1 = kdf2 C 64 USAGE_ROOT_KEY (dr_root_key x) (mx_k sh)) by (subst d1; cbn; auto 10).
  destruct SH as (S1 & S2 & S3 & S4 & S5 & S6). clear ED.
  rewrite S1 in EC, DH. rewrite S5 in Z, J, NE, EX, AU, EN. cbn [ra_chain_key ra_message_id] in Z, J, NE, EX, AU, EN.
  assert (IM : d4_i m = dr_i x) by lia.
  destruct SE as (I1 & I2 & _ & NY & RT & BR & [KN1 KN2] & [KN3 KN4] & LK).
  assert (SE : stateE x y) by (repeat split; assumption).
  pose proof (mixed_next_ok _ _ _ _ _ _ _ _ X) as (_ & _ & M1 & M2 & M3 & M4 & _).
  set (third := dr_i x mod 3 =? 0) in *.
  assert (X' : dr_shared x' = sh /\ dr_i x' = dr_i x + 1 /\ dr_next x' = RECEIVER /\
     dr_receiver x' = dr_receiver x /\
     dr_sender x' = mkRatchet (kdf C 64 USAGE_NEXT_CHAIN_KEY (kdf2 C 64 USAGE_CHAIN_KEY (dr_root_key x) (mx_k sh))) 1 /\
     dr_root_key x' = kdf2 C 64 USAGE_ROOT_KEY (dr_root_key x) (mx_k sh)).
  { subst x'. cbn. rewrite S1, S2, S3, S4, S6. auto 10. }
  destruct X' as (X1 & X2 & X3 & X4 & X5 & X6).
  assert (KX' : own_keys x').
  { unfold own_keys. rewrite X1, M1, M2. split.
    - unfold ecdh_generate in EG. destruct (random_in_Zq C (sr_ecdh rnd)) as [z| |]; cbn [bind] in EG; try discriminate.
      destruct (prune _) as [bf| |]; cbn [bind] in EG; try discriminate. injection EG as <-. eauto.
    - destruct third; [eauto|apply KX]. }
  assert (SD : stateD x' y).
  { unfold stateD. rewrite X1, X2, X3, X5, X6. split; [lia|]. split; [reflexivity|]. split; [exact NY|].
    split; [split; rewrite X1, ?M3, ?M4; assumption|].
    split.
    { rewrite M1, M2. unfold third in X |- *. rewrite KN1, KN2, BR, I1 in X. rewrite I1. exact X. }
    split; [now rewrite RT|]. split; [unfold on_chain; cbn; now rewrite RT|].
    split.
    { rewrite <- I1. fold third. intros T. unfold dh_pub. rewrite X1, M2, T. exact KN4. }
    split; [exact VY|]. lia. }
  assert (AH : ahead sx sy x' y m text).
  { unfold ahead. rewrite X1, X2. unfold ec_pub, dh_pub. rewrite X1, IM, I1.
    split; [reflexivity|]. split; [reflexivity|]. split; [exact NY|]. split; [exact EC|].
    rewrite IM, I1 in DH. split; [exact DH|]. split; [now rewrite <- EC|].
    split; [intros T; apply DV; now rewrite DH, T|].
    rewrite J. cbn [chain4 N.to_nat]. rewrite <- RT. 
    split; [exact Z|]. split; [exact EN|]. split; [exact AU|]. split; [exact ANZ|]. rewrite J. lia. }
  split; [|auto].
  split; [exact KX'|]. split; [exact KY|].
  split; [split; [rewrite X2; lia|rewrite X5; cbn; lia]|]. split; [exact SY|].
  split; [rewrite X1, M4; exact VX|]. split; [exact VY|].
  split; [|split; [|auto]].
  - split; [|split].
    + apply Forall_app. split; [|constructor; [right; right; exact AH|constructor]].
      rewrite Forall_forall in FX, BX |- *. intros z H. specialize (FX z H). specialize (BX z H).
      destruct FX as [H1|[H1|H1]]; [left; exact H1|right; left; exact H1|].
      exfalso. destruct H1 as (_ & Q & _). lia.
    + apply ordered4_app; [exact OX|]. eapply Forall_impl; [|exact BX].
      intros z. unfold sent_before, before4. rewrite NX. cbn [selector_eqb]. lia.
    + apply Forall_app. split.
      * eapply Forall_impl; [|exact BX]. intros z. unfold sent_before. rewrite NX, X2, X3, X5. cbn [selector_eqb ra_message_id].
        lia.
      * constructor; [|constructor]. cbn [fst]. unfold sent_before. rewrite X2, X3, X5. cbn [selector_eqb ra_message_id]. lia.
  - split; [|split; [exact OY|exact BY]].
    eapply Forall_impl; [|exact FY]. intros z H. left. unfold dead. rewrite X2.
    destruct H as [H1|[H1|H1]].
    + unfold dead in H1. lia.
    + destruct H1 as (H1 & _). lia.
    + destruct H1 as (_ & _ & Q & _). congruence.
Qed.

(** ** Arriving *)

Lemma option_eq_dec_N (a b : option N) : {a = b} + {a <> b}.
Proof. decide equality. apply N.eq_dec. Qed.

Lemma ahead_stateD sx sy x y m text xy yx : inv4 sx sy x y xy yx -> ahead sx sy x y m text -> stateD x y.
Proof.
  intros (_ & _ & _ & _ & _ & _ & _ & _ & ST) (_ & I & NY & _).
  destruct ST as [ST|[ST|[ST|ST]]]; [| |exact ST|].
  - destruct ST as (Q & _). lia.
  - destruct ST as (Q & _). lia.
  - destruct ST as (Q & _). lia.
Qed.

(* what Y computes from the keys in a message of the ratchet that X started *)
Lemma ahead_shared sx sy x y m text : own_keys x -> own_keys y -> stateD x y -> ahead sx sy x y m text ->
  let dh := match d4_dh m with Some v => v | None => mx_public_dh (dr_shared y) end in
  dh = dh_pub x /\ dh3_verify C dh = true /\
  exists sh, mixed_next C (mx_ecdh (dr_shared y)) (mx_dh (dr_shared y)) (d4_ecdh m) dh
               (dr_i y mod 3 =? 0) (mx_brace_key (dr_shared y)) = Ok sh /\
    mx_brace_key sh = mx_brace_key (dr_shared x) /\ mx_k sh = mx_k (dr_shared x).
Proof.
  intros ([e1 K1] & [r1 K2]) ([e2 K3] & [r2 K4]) ST (IM & _ & _ & EC & DH & PV & DV & _) dh.
  destruct ST as (_ & _ & _ & _ & X & _ & _ & ND & VY & _).
  assert (D : dh = dh_pub x).
  { unfold dh. rewrite DH. destruct (dr_i y mod 3 =? 0) eqn:T; [reflexivity|]. now apply ND. }
  assert (V : dh3_verify C dh = true).
  { rewrite D. destruct (dr_i y mod 3 =? 0) eqn:T; [now apply DV|]. rewrite <- ND by reflexivity. exact VY. }
  split; [exact D|]. split; [exact V|].
  rewrite D in V |- *. rewrite EC. unfold ec_pub, dh_pub in *. rewrite K1, K2, K3, K4 in *.
  eapply mixed_agree; [exact X|exact PV|exact V].
Qed.

Lemma arrive sx sy x y m text r yx now :
  inv4 sx sy x y ((m, text) :: r) yx ->
  let auth := encode_authenticator_data4 sx sy m in
  (dead y m /\ decrypt4 C y m auth now = (y, Err UserError)) \/
  (current sx sy y m text /\ exists y', decrypt4 C y m auth now = (y', Ok text)) \/
  (ahead sx sy x y m text /\ d4_dh m <> Some (mx_public_dh (dr_shared y)) /\
   exists y', decrypt4 C y m auth now = (y', Ok text)) \/
  (ahead sx sy x y m text /\ d4_dh m = Some (mx_public_dh (dr_shared y)) /\
   decrypt4 C y m auth now = (y, Err ProtocolViolation)).
Proof.
  intros IV auth. pose proof IV as (KX & KY & [SX _] & _ & _ & _ & (F & _) & _ & _).
  inversion F as [|? ? OW _]; subst. destruct OW as [D|[Cu|A]]; cbn [fst snd] in *.
  - left. split; [exact D|]. unfold decrypt4.
    assert (S : speculate4 C y m now = Err UserError).
    { unfold dead in D. unfold speculate4. destruct (N.ltb_spec (dr_i y) (d4_i m)); [lia|].
      destruct (N.ltb_spec (d4_i m) (dr_i y - 1)); [reflexivity|lia]. }
    rewrite S. reflexivity.
  - right. left. split; [exact Cu|]. destruct Cu as (I & J & Z & EN & AU & NZ & L).
    eexists. rewrite (decrypt4_current C y m auth now _ I J L eq_refl Z AU NZ).
    rewrite EN, chacha_crypt_involutive. reflexivity.
  - right. right. pose proof (ahead_stateD _ _ _ _ _ _ _ _ IV A) as ST.
    destruct (ahead_shared _ _ _ _ _ _ KX KY ST A) as (D & V & sh & X & BR & MK).
    pose proof A as (IM & IX & NY & EC & DH & PV & DV & Z & EN & AU & NZ & L).
    assert (TH : (dr_i y mod 3 =? 0) = is_some (d4_dh m)).
    { rewrite DH. now destruct (dr_i y mod 3 =? 0). }
    assert (J0 : ra_message_id (dr_receiver y) <= d4_j m \/ dr_i y <> 0).
    { destruct (N.eq_dec (dr_i y) 0) as [Z0|]; [|auto]. left.
      destruct ST as (_ & _ & _ & _ & _ & _ & _ & _ & _ & Q). destruct (Q Z0) as [_ ->]. lia. }
    assert (LI : dr_i y < 4294967295) by lia.
    assert (DNZ : match d4_dh m with Some v => v | None => mx_public_dh (dr_shared y) end <> 0).
    { intros Q. rewrite Q in V. unfold dh3_verify in V. destruct G as (_ & _ & GZ).
      replace (0 <? c_dh3_g C) with true in V by (symmetry; apply N.ltb_lt; lia). discriminate. }
    destruct (option_eq_dec_N (d4_dh m) (Some (mx_public_dh (dr_shared y)))) as [EQ|NEQ].
    + right. split; [exact A|]. split; [exact EQ|]. unfold decrypt4.
      assert (S : speculate4 C y m now = Err ProtocolViolation).
      { unfold speculate4. destruct (N.ltb_spec (dr_i y) (d4_i m)); [lia|].
        destruct (N.ltb_spec (d4_i m) (dr_i y - 1)); [lia|]. cbn [orb].
        replace ((d4_i m =? dr_i y - 1) && (d4_j m <? ra_message_id (dr_receiver y))) with false.
        2: { symmetry. apply andb_false_iff. rewrite N.eqb_neq, N.ltb_ge. lia. }
        destruct (N.eqb_spec (d4_i m) (dr_i y)); [|lia]. rewrite NY. cbn [selector_eqb negb].
        rewrite IM, TH, EQ. cbn [is_some Bool.eqb negb]. now rewrite N.eqb_refl. }
      rewrite S. reflexivity.
    + left. split; [exact A|]. split; [exact NEQ|]. rewrite <- MK in Z, EN, AU.
      destruct (decrypt4_next C y m auth now _ sh _ IM NY J0 L LI eq_refl DNZ TH
        (fun v Q P => NEQ (eq_trans Q (f_equal Some P))) X eq_refl Z AU NZ) as [y' E].
      exists y'. rewrite E, EN, chacha_crypt_involutive. reflexivity.
Qed.

Lemma sent_before_current sx sy x y m text :
  current sx sy y m text -> sent_before x m -> dr_next x = RECEIVER -> dr_i x <= dr_i y ->
  d4_j m + 1 <= ra_message_id (dr_sender x).
Proof.
  intros (I & _) SB NX LE. unfold sent_before in SB. rewrite NX in SB. cbn [selector_eqb] in SB. lia.
Qed.

Lemma take_current sx sy x y m text r yx now y' t :
  inv4 sx sy x y ((m, text) :: r) yx -> current sx sy y m text ->
  decrypt4 C y m (encode_authenticator_data4 sx sy m) now = (y', Ok t) ->
  inv4 sx sy x y' r yx /\ t = text /\
  (stateE x y -> stateE x y') /\ (stateE y x -> stateE y' x) /\ (stateD x y -> stateD x y') /\
  (stateD y x -> stateD y' x).
Proof.
  intros (KX & KY & SX & SY & VX & VY & (FX & OX & BX) & (FY & OY & BY) & ST) CU E.
  pose proof CU as (I & J & Z & EN & AU & NZ & L).
  rewrite (decrypt4_current C y m _ now _ I J L eq_refl Z AU NZ) in E.
  rewrite EN, chacha_crypt_involutive in E.
  set (ck := chain4 C _ _) in *. injection E as EY <-.
  set (k := ra_message_id (dr_receiver y)) in *.
  inversion BX as [|? ? B1 BX']; subst. cbn [fst] in B1.
  assert (KEY : forall base, on_chain (dr_receiver y) base ->
     on_chain (mkRatchet (kdf C 64 USAGE_NEXT_CHAIN_KEY ck) (d4_j m + 1)) base).
  { intros base OC. unfold on_chain in *. cbn [ra_chain_key ra_message_id]. unfold ck. rewrite OC, chain4_add.
    replace (_ + _)%nat with (N.to_nat (d4_j m)) by (unfold k; lia).
    replace (N.to_nat (d4_j m + 1)) with (S (N.to_nat (d4_j m))) by lia. reflexivity. }
  set (y' := dr_with_receiver _ _ _).
  assert (S1 : stateE x y -> stateE x y').
  { unfold stateE, knows, linked, ec_pub, dh_pub. cbn. tauto. }
  assert (S2 : stateE y x -> stateE y' x).
  { unfold stateE, knows, linked, ec_pub, dh_pub. cbn.
    intros (H1 & H2 & H3 & H4 & H5 & H6 & H7 & H8 & base & C1 & C2 & LE).
    repeat split; try tauto. exists base. split; [exact C1|]. split; [now apply KEY|]. cbn.
    eapply sent_before_current; try eassumption. lia. }
  assert (S3 : stateD x y -> stateD x y').
  { unfold stateD, knows, linked, ec_pub, dh_pub. cbn.
    intros (H1 & H2 & H3 & H4 & H5 & H6 & H7 & H8 & H9 & H10).
    split; [exact H1|]. split; [exact H2|]. split; [exact H3|]. split; [exact H4|]. split; [exact H5|].
    split; [exact H6|]. split; [exact H7|]. split; [exact H8|]. split; [exact H9|]. lia. }
  assert (S4 : stateD y x -> stateD y' x).
  { unfold stateD, knows, linked, ec_pub, dh_pub. cbn.
    intros (H1 & H2 & H3 & H4 & H5 & H6 & H7 & H8 & H9 & H10).
    split; [exact H1|]. split; [exact H2|]. split; [exact H3|]. split; [exact H4|]. split; [exact H5|].
    split; [exact H6|]. split; [exact H7|]. split; [exact H8|]. split; [exact H9|].
    intros Z0. destruct (H10 Z0) as [(base & C1 & C2 & LE) K]. split; [|exact K].
    exists base. split; [exact C1|]. split; [now apply KEY|]. cbn.
    eapply sent_before_current; try eassumption. lia. }
  split; [|auto 10].
  split; [exact KX|]. split; [exact KY|]. split; [exact SX|]. split; [exact SY|].
  split; [exact VX|]. split; [exact VY|]. split; [|split; [|tauto]].
  - destruct OX as [OX1 OX2]. split; [|split; [exact OX2|exact BX']].
    inversion FX as [|? ? _ FX']; subst. rewrite Forall_forall in FX', OX1 |- *.
    intros z H. specialize (FX' z H). specialize (OX1 z H). destruct FX' as [H1|[H1|H1]].
    + left. exact H1.
    + right. left. destruct H1 as (I1 & J1 & P). unfold before4 in OX1. cbn [fst] in OX1.
      assert (J2 : d4_j m < d4_j (fst z)) by lia.
      split; [exact I1|]. split; [cbn; lia|]. cbn [dr_receiver dr_with_receiver y' ra_chain_key ra_message_id].
      rewrite chain4_shift. unfold ck. rewrite chain4_add.
      replace (_ + _)%nat with (N.to_nat (d4_j (fst z) - ra_message_id (dr_receiver y))) by (unfold k in *; lia).
      exact P.
    + right. right. exact H1.
  - split; [|split; [exact OY|exact BY]]. exact FY.
Qed.

Lemma take_ahead sx sy x y m text r yx now y' t :
  inv4 sx sy x y ((m, text) :: r) yx -> ahead sx sy x y m text ->
  decrypt4 C y m (encode_authenticator_data4 sx sy m) now = (y', Ok t) ->
  inv4 sx sy x y' r yx /\ t = text /\ stateE y' x.
Proof.
  intros IV A E. pose proof (ahead_stateD _ _ _ _ _ _ _ _ IV A) as ST.
  pose proof IV as (KX & KY & SX & SY & VX & VY & (FX & OX & BX) & (FY & OY & BY) & _).
  destruct (ahead_shared _ _ _ _ _ _ KX KY ST A) as (D & V & sh & X & BR & MK).
  pose proof A as (IM & IX & NY & EC & DH & PV & DV & Z & EN & AU & NZ & L).
  apply decrypt4_ok in E. destruct E as (ck & AC & Z' & AU' & NZ' & ET).
  destruct AC as [I _ _|sh' dh _ _ DD _ _ X' CK]; [lia|].
  rewrite <- DD in X. rewrite X in X'. injection X' as <-. rewrite <- DD in D, V.
  rewrite MK in CK. rewrite <- CK in Z, EN, AU.
  assert (TT : t = text) by (rewrite ET, EN; apply chacha_crypt_involutive).
  pose proof (mixed_next_ok _ _ _ _ _ _ _ _ X) as (_ & _ & M1 & M2 & M3 & M4 & _).
  destruct ST as (I1 & NX & _ & [KN1 KN2] & XX & RX & CX & ND & _ & L0).
  inversion BX as [|? ? B1 BX']; subst. cbn [fst] in B1.
  set (y' := mkDR _ _ _ _ _ _ _ _ _).
  assert (SE : stateE y' x).
  { unfold stateE, knows, linked, ec_pub, dh_pub. cbn.
    split; [lia|]. split; [lia|]. split; [reflexivity|]. split; [exact NX|].
    split; [rewrite MK; now symmetry|]. split; [exact BR|].
    split; [split; [rewrite M3; exact EC|rewrite M4; exact D]|].
    split; [split; rewrite ?M1, ?M2; assumption|].
    exists (kdf2 C 64 USAGE_CHAIN_KEY (dr_root_key y) (mx_k (dr_shared x))). split; [exact CX|].
    split.
    - unfold on_chain. cbn [ra_chain_key ra_message_id].
      replace (N.to_nat (d4_j m + 1)) with (S (N.to_nat (d4_j m))) by lia. reflexivity.
    - cbn. unfold sent_before in B1. rewrite NX in B1. cbn [selector_eqb] in B1. lia. }
  split; [|auto].
  split; [exact KX|]. split; [unfold own_keys; cbn; now rewrite M1, M2|].
  split; [exact SX|]. split; [split; cbn; [destruct SX; lia|apply SY]|].
  split; [exact VX|]. split; [cbn; rewrite M4; exact V|].
  split; [|split; [|auto]].
  - destruct OX as [OX1 OX2]. split; [|split; [exact OX2|exact BX']].
    inversion FX as [|? ? _ FX']; subst. rewrite Forall_forall in FX', OX1 |- *.
    intros z H. specialize (FX' z H). specialize (OX1 z H). unfold before4 in OX1. cbn [fst] in OX1.
    destruct FX' as [H1|[H1|H1]].
    + left. unfold dead in *. cbn. lia.
    + destruct H1 as (Q & _). lia.
    + destruct H1 as (Q1 & Q2 & _ & _ & _ & _ & _ & P). right. left. split; [cbn; lia|].
      assert (J2 : d4_j m < d4_j (fst z)) by lia.
      split; [cbn; lia|]. cbn [dr_receiver y' ra_chain_key ra_message_id].
      rewrite chain4_shift, chain4_add.
      replace (_ + _)%nat with (N.to_nat (d4_j (fst z))) by lia. exact P.
  - split; [|split; [exact OY|]].
    + eapply Forall_impl; [|exact FY]. intros z [H|[H|H]]; [left; exact H|right; left; exact H|].
      destruct H as (_ & Q & _). lia.
    + eapply Forall_impl; [|exact BY]. intros z. unfold sent_before. rewrite NY. cbn. lia.
Qed.

(* any arrival *)
Lemma take4 sx sy x y m text r yx now y' t :
  inv4 sx sy x y ((m, text) :: r) yx ->
  decrypt4 C y m (encode_authenticator_data4 sx sy m) now = (y', Ok t) ->
  inv4 sx sy x y' r yx /\ t = text.
Proof.
  intros IV E. destruct (arrive _ _ _ _ _ _ _ _ now IV) as [[_ H]|[[H _]|[[H _]|(_ & _ & H)]]].
  - rewrite H in E. discriminate.
  - destruct (take_current _ _ _ _ _ _ _ _ _ _ _ IV H E) as (H1 & H2 & _). auto.
  - destruct (take_ahead _ _ _ _ _ _ _ _ _ _ _ IV H E) as (H1 & H2 & _). auto.
  - rewrite H in E. discriminate.
Qed.

Lemma drop4 sx sy x y z r yx : inv4 sx sy x y (z :: r) yx -> inv4 sx sy x y r yx.
Proof.
  intros (KX & KY & SX & SY & VX & VY & FX & FY & ST). apply flight_tail in FX.
  repeat split; try assumption; apply FX || apply FY || apply KX || apply KY || apply SX || apply SY.
Qed.

Lemma send4 {extra} sx sy x y xy yx ig text rnd m x' :
  inv4 sx sy x y xy yx -> encrypt4 C sx sy x ig text extra rnd = Ok (m, x') ->
  inv4 sx sy x' y (xy ++ [(m, text)]) yx.
Proof.
  intros IV E. destruct (dr_next x) eqn:NX.
  - eapply send_new; eassumption.
  - eapply send_same; eassumption.
Qed.

(** ** Conversations *)

Lemma start4_inv ta tb s : start4 C s ->
  inv4 ta tb (cw_a s) (cw_b s) (cw_ab s) (cw_ba s) /\ stateD (cw_b s) (cw_a s) /\ dr_i (cw_a s) = 0.
Proof.
  intros (ea & da & eb & db & root & sha & shb & na & nb & nb' & er & dr & MA & MB & EA & EB & QA & QB).
  rewrite QA, QB. apply rotate_sender_ok in EB. cbn [dr_initialize dr_next dr_shared dr_i dr_root_key dr_receiver
    dr_sender dr_reveals] in EB. destruct EB as (ecdh & sh & _ & EG & X & EB & _).
  change (0 mod 3 =? 0) with true in X. cbv iota in X.
  unfold mixed_new in MA, MB.
  pose proof (mixed_next_ok _ _ _ _ _ _ _ _ MA) as (PA & VA & A1 & A2 & A3 & A4 & _ & _ & BA & KA).
  pose proof (mixed_next_ok _ _ _ _ _ _ _ _ MB) as (PB & VB & B1 & B2 & B3 & B4 & _ & _ & BB & KB).
  pose proof (mixed_next_ok _ _ _ _ _ _ _ _ X) as (PX & VX & X1 & X2 & X3 & X4 & _).
  assert (MK : mx_brace_key sha = mx_brace_key shb /\ mx_k sha = mx_k shb).
  { assert (Q : mx_brace_key sha = mx_brace_key shb) by (rewrite BA, BB; now rewrite dh3_agree).
    split; [exact Q|]. rewrite KA, KB, Q. now rewrite shared_agree. }
  destruct MK as [QB' QK].
  assert (KEYS : own_keys (cw_a s) /\ own_keys (cw_b s)).
  { rewrite EA, EB. unfold own_keys. cbn. rewrite A1, A2, X1, X2. split; [eauto|]. split; [|eauto].
    unfold ecdh_generate in EG. destruct (random_in_Zq C er) as [z| |]; cbn [bind] in EG; try discriminate.
    destruct (prune _) as [bf| |]; cbn [bind] in EG; try discriminate. injection EG as <-. eauto. }
  assert (SD : stateD (cw_b s) (cw_a s)).
  { rewrite EA, EB. unfold stateD, knows, linked, ec_pub, dh_pub. cbn. rewrite <- QK, <- QB' in *.
    split; [lia|]. split; [reflexivity|]. split; [reflexivity|].
    split; [split; rewrite ?X3, ?X4, ?A1, ?A2; assumption|].
    split; [rewrite X1, X2, A1, A2; rewrite B3, B4 in X; exact X|].
    split; [reflexivity|]. split; [reflexivity|]. split; [discriminate|]. split; [rewrite A4; exact VA|].
    intros _. split; [|reflexivity].
    exists (kdf2 C 64 USAGE_CHAIN_KEY root (mx_k sha)). unfold on_chain. cbn. repeat split. lia. }
  split; [|split; [exact SD|rewrite EA; reflexivity]].
  destruct KEYS as [K1 K2]. split; [exact K1|]. split; [exact K2|].
  split; [rewrite EA; split; cbn; lia|]. split; [rewrite EB; split; cbn; lia|].
  split; [rewrite EA; cbn; now rewrite A4|]. split; [rewrite EB; cbn; rewrite X4, B4; exact VB|].
  split; [repeat split; constructor|]. split; [repeat split; constructor|]. auto.
Qed.

Lemma step4_inv ta tb s o s' : step4 C ta tb s o s' ->
  inv4 ta tb (cw_a s) (cw_b s) (cw_ab s) (cw_ba s) ->
  inv4 ta tb (cw_a s') (cw_b s') (cw_ab s') (cw_ba s') /\
  (forall a m sent got, o = Delivered4 a m sent got -> got = sent).
Proof.
  intros ST IV. destruct ST as [s ig text rnd m k E|s ig text rnd m k E|s x r Q|s x r Q|s m text r now k got Q E
    |s m text r now k got Q E|s m text r now k e Q E|s m text r now k e Q E]; cbn [cw_a cw_b cw_ab cw_ba].
  - split; [|discriminate]. eapply send4; eassumption.
  - split; [|discriminate]. apply inv4_sym. eapply send4; [apply inv4_sym|]; eassumption.
  - rewrite Q in IV. split; [|discriminate]. eapply drop4; eassumption.
  - rewrite Q in IV. split; [|discriminate]. apply inv4_sym. eapply drop4. apply inv4_sym. eassumption.
  - rewrite Q in IV. destruct (take4 _ _ _ _ _ _ _ _ _ _ _ IV E) as [H ->]. split; [exact H|].
    intros a m' sent got' H'. congruence.
  - rewrite Q in IV. apply inv4_sym in IV. destruct (take4 _ _ _ _ _ _ _ _ _ _ _ IV E) as [H ->].
    split; [now apply inv4_sym|]. intros a m' sent got' H'. congruence.
  - rewrite Q in IV. apply decrypt4_err in E. subst k. split; [|discriminate]. eapply drop4; eassumption.
  - rewrite Q in IV. apply decrypt4_err in E. subst k. split; [|discriminate]. apply inv4_sym. eapply drop4.
    apply inv4_sym. eassumption.
Qed.

Lemma conversation4_inv ta tb s0 os s : conversation4 C ta tb s0 os s ->
  inv4 ta tb (cw_a s) (cw_b s) (cw_ab s) (cw_ba s) /\
  (forall a m sent got, In (Delivered4 a m sent got) os -> got = sent).
Proof.
  intros H. induction H as [s H|s0 os s o s' _ [IH1 IH2] ST].
  - split; [now apply start4_inv|]. intros ? ? ? ? [].
  - destruct (step4_inv _ _ _ _ _ ST IH1) as [H1 H2]. split; [exact H1|].
    intros a m sent got H. apply in_app_or in H. destruct H as [H|[H|[]]]; [eauto|]. eapply H2. exact H.
Qed.

(** ** One party speaks at a time *)

(* state when X has the floor and nothing is under way *)
Definition has_floor (x y : double_ratchet) : Prop :=
  stateE x y \/ stateE y x \/ stateD x y \/ (stateD y x /\ dr_i x = 0).

Lemma floor_send {extra} sx sy x y ig text rnd m x' now :
  inv4 sx sy x y [] [] -> has_floor x y -> encrypt4 C sx sy x ig text extra rnd = Ok (m, x') ->
  has_floor x' y /\ inv4 sx sy x' y [(m, text)] [] /\
  ((exists y', decrypt4 C y m (encode_authenticator_data4 sx sy m) now = (y', Ok text)) \/
   d4_dh m = Some (mx_public_dh (dr_shared y))).
Proof.
  intros IV FL E. pose proof (send4 _ _ _ _ _ _ _ _ _ _ _ IV E) as IV'. cbn [app] in IV'.
  assert (Q : has_floor x' y /\ ~ dead y m).
  { destruct (dr_next x) eqn:NX.
    - destruct (send_new _ _ _ _ _ _ _ _ _ _ _ IV NX E) as (_ & _ & SD & AH).
      split; [unfold has_floor; auto|]. destruct AH as (I & _). unfold dead. lia.
    - destruct (send_same _ _ _ _ _ _ _ _ _ _ _ IV NX E) as (_ & CASES & S1 & S2 & S3).
      pose proof (send_fields C sx sy _ _ _ _ _ _ _ E) as (_ & _ & [(_ & IX & _)|(Q & _)]); [|congruence].
      split.
      + unfold has_floor. rewrite IX. destruct FL as [FL|[FL|[FL|[FL Z]]]]; auto 6.
        destruct FL as (_ & _ & Q & _). congruence.
      + destruct CASES as [[_ H]|[[_ H]|[(_ & _ & H)|(SD & NZ & _)]]].
        * destruct H as (H & _). unfold dead. lia.
        * destruct H as (H & _). unfold dead. lia.
        * destruct H as (H & _). unfold dead. lia.
        * exfalso. destruct SD as (J & NY & _ & _). destruct FL as [FL|[FL|[FL|[_ FL]]]].
          -- destruct FL as (_ & _ & Q & _). congruence.
          -- destruct FL as (Q & _). lia.
          -- destruct FL as (Q & _). lia.
          -- contradiction. }
  destruct Q as [FL' ND]. split; [exact FL'|]. split; [exact IV'|].
  destruct (arrive _ _ _ _ _ _ _ _ now IV') as [[H _]|[[_ H]|[(_ & _ & H)|(_ & H & _)]]]; auto. contradiction.
Qed.

Lemma floor_take sx sy x y m text now y' t :
  inv4 sx sy x y [(m, text)] [] -> has_floor x y -> d4_i m = dr_i x - 1 ->
  decrypt4 C y m (encode_authenticator_data4 sx sy m) now = (y', Ok t) ->
  inv4 sx sy x y' [] [] /\ has_floor x y' /\ has_floor y' x.
Proof.
  intros IV FL IM E. destruct (arrive _ _ _ _ _ _ _ _ now IV) as [[_ H]|[[H _]|[[H _]|(_ & _ & H)]]].
  - rewrite H in E. discriminate.
  - destruct (take_current _ _ _ _ _ _ _ _ _ _ _ IV H E) as (H1 & _ & S1 & S2 & S3 & S4).
    split; [exact H1|]. unfold has_floor.
    destruct FL as [FL|[FL|[FL|[FL Z]]]].
    + auto 10.
    + auto 10.
    + exfalso. destruct H as (I & _). destruct FL as (Q & _). lia.
    + auto 10.
  - destruct (take_ahead _ _ _ _ _ _ _ _ _ _ _ IV H E) as (H1 & _ & S). unfold has_floor. auto 10.
  - rewrite H in E. discriminate.
Qed.

Section Floor.
Context (ta tb : N).
Local Notation tag_of := (tag_of ta tb).

Definition invs (a : bool) (s : conv4) : Prop :=
  inv4 (tag_of a) (tag_of (negb a)) (side a s) (side (negb a) s) (sent_by a s) (sent_by (negb a) s).

Lemma conversation_invs s0 os s a : conversation4 C ta tb s0 os s -> invs a s.
Proof.
  intros H. destruct (conversation4_inv _ _ _ _ _ H) as [I _]. destruct a; [exact I|apply inv4_sym; exact I].
Qed.

Lemma step_sending s a m s' : step4 C ta tb s (Sending4 a m) s' ->
  exists ig text rnd, encrypt4 C (tag_of a) (tag_of (negb a)) (side a s) ig text [] rnd = Ok (m, side a s') /\
    side (negb a) s' = side (negb a) s /\ sent_by a s' = sent_by a s ++ [(m, text)] /\
    sent_by (negb a) s' = sent_by (negb a) s.
Proof. intros H. inversion H; subst; exists ignore, text, rnd; auto. Qed.

Lemma step_losing s a s' : step4 C ta tb s (Losing4 a) s' ->
  side a s' = side a s /\ side (negb a) s' = side (negb a) s /\ sent_by (negb a) s' = sent_by (negb a) s /\
  exists x, sent_by a s = x :: sent_by a s'.
Proof. intros H. inversion H; subst; cbn; rewrite ?H0; repeat split; eauto. Qed.

Lemma step_delivered s a m sent got s' : step4 C ta tb s (Delivered4 a m sent got) s' ->
  side a s' = side a s /\ sent_by (negb a) s' = sent_by (negb a) s /\
  sent_by a s = (m, sent) :: sent_by a s' /\
  exists now, decrypt4 C (side (negb a) s) m (encode_authenticator_data4 (tag_of a) (tag_of (negb a)) m) now
              = (side (negb a) s', Ok got).
Proof. intros H. inversion H; subst; cbn; repeat split; eauto. Qed.

Lemma step_rejected s a m sent s' : step4 C ta tb s (Rejected4 a m sent) s' ->
  side a s' = side a s /\ side (negb a) s' = side (negb a) s /\ sent_by (negb a) s' = sent_by (negb a) s /\
  sent_by a s = (m, sent) :: sent_by a s' /\
  exists now e, decrypt4 C (side (negb a) s) m (encode_authenticator_data4 (tag_of a) (tag_of (negb a)) m) now
              = (side (negb a) s, Err e).
Proof.
  intros H. inversion H; subst; cbn; match goal with E : decrypt4 _ _ _ _ _ = _ |- _ =>
    pose proof (decrypt4_err _ _ _ _ _ _ _ E); subst end; repeat split; eauto.
Qed.

Lemma conversation_snoc s0 os o s : conversation4 C ta tb s0 (os ++ [o]) s ->
  exists s1, conversation4 C ta tb s0 os s1 /\ step4 C ta tb s1 o s.
Proof.
  intros H. remember (os ++ [o]) as l eqn:L. destruct H as [s H|s0 os' s1 o' s H ST].
  - now destruct os.
  - apply app_inj_tail in L. destruct L as [-> ->]. eauto.
Qed.

Definition quiet (s : conv4) : Prop := cw_ab s = [] /\ cw_ba s = [].

Lemma quiet_of a s : sent_by a s = [] -> sent_by (negb a) s = [] -> quiet s.
Proof. destruct a; cbn; unfold quiet; auto. Qed.

Lemma last_index {extra} sx sy x ig text rnd m x' :
  encrypt4 C sx sy x ig text extra rnd = Ok (m, x') -> d4_i m = dr_i x' - 1.
Proof.
  intros E. apply encrypt4_ok in E. destruct E as (d1 & rv & R & _ & _ & _ & -> & _ & _ & I & _).
  exact I.
Qed.

Lemma floor_inv a os s0 s : conversation4 C ta tb s0 os s -> floor4 a os ->
  quiet s /\ has_floor (side a s) (side (negb a) s) /\
  (forall os' m sent got, os = os' ++ [Delivered4 a m sent got] -> has_floor (side (negb a) s) (side a s)).
Proof.
  intros CV FL. revert s CV.
  assert (TWO : forall a os m o s, conversation4 C ta tb s0 (os ++ [Sending4 a m; o]) s ->
     exists s1 s2, conversation4 C ta tb s0 os s1 /\ step4 C ta tb s1 (Sending4 a m) s2 /\ step4 C ta tb s2 o s).
  { intros a0 os0 m o s H. change [Sending4 a0 m; o] with ([Sending4 a0 m] ++ [o]) in H. rewrite app_assoc in H.
    apply conversation_snoc in H. destruct H as (s2 & H & S2). apply conversation_snoc in H.
    destruct H as (s1 & H & S1). eauto. }
  assert (SND : forall a s1 s2 os m, conversation4 C ta tb s0 os s1 -> step4 C ta tb s1 (Sending4 a m) s2 ->
     quiet s1 -> has_floor (side a s1) (side (negb a) s1) ->
     has_floor (side a s2) (side (negb a) s2) /\ d4_i m = dr_i (side a s2) - 1 /\
     exists text, sent_by a s2 = [(m, text)] /\ sent_by (negb a) s2 = [] /\ invs a s2).
  { intros a0 s1 s2 os0 m CV ST [Q1 Q2] FL0. pose proof (conversation_invs _ _ _ a0 CV) as IV.
    assert (CV2 : conversation4 C ta tb s0 (os0 ++ [Sending4 a0 m]) s2) by (econstructor; eassumption).
    pose proof (conversation_invs _ _ _ a0 CV2) as IV2.
    apply step_sending in ST. destruct ST as (ig & text & rnd & E & SD & QA & QB).
    assert (EA : sent_by a0 s1 = []) by (destruct a0; assumption).
    assert (EB : sent_by (negb a0) s1 = []) by (destruct a0; assumption).
    unfold invs in IV. rewrite EA, EB in IV. rewrite EA in QA. rewrite EB in QB.
    destruct (floor_send _ _ _ _ _ _ _ _ _ 0 IV FL0 E) as (H1 & _ & _).
    rewrite SD. split; [exact H1|]. split; [eapply last_index; exact E|]. exists text. auto. }
  induction FL as [a|a os m sent got _ IH|a os m sent _ IH|a os m _ IH|a os m sent got FL IH]; intros s CV.
  - inversion CV as [? ST|]; subst; [|destruct os; discriminate].
    destruct (start4_inv ta tb s ST) as (_ & SD & Z).
    destruct ST as (? & ? & ? & ? & ? & ? & ? & ? & ? & ? & ? & ? & _ & _ & _ & _ & Q1 & Q2).
    split; [split; assumption|]. split; [|intros os' ? ? ? Q; now destruct os'].
    unfold has_floor. destruct a; cbn [side negb]; auto 6.
  - destruct (TWO _ _ _ _ _ CV) as (s1 & s2 & CV1 & S1 & S2).
    destruct (IH s1 CV1) as (QQ & FL0 & _). destruct (SND _ _ _ _ _ CV1 S1 QQ FL0) as (FL1 & IM & text & QA & QB & IV).
    apply step_delivered in S2. destruct S2 as (SA & QB' & QA' & now & E).
    rewrite QA in QA'. injection QA' as -> QA'. unfold invs in IV. rewrite QA, QB in IV.
    destruct (floor_take _ _ _ _ _ _ _ _ _ IV FL1 IM E) as (_ & F1 & F2).
    split; [apply (quiet_of a); congruence|]. rewrite SA. auto.
  - destruct (TWO _ _ _ _ _ CV) as (s1 & s2 & CV1 & S1 & S2).
    destruct (IH s1 CV1) as (QQ & FL0 & _). destruct (SND _ _ _ _ _ CV1 S1 QQ FL0) as (FL1 & IM & text & QA & QB & IV).
    apply step_rejected in S2. destruct S2 as (SA & SB & QB' & QA' & _).
    rewrite QA in QA'. injection QA' as -> QA'.
    split; [apply (quiet_of a); congruence|]. rewrite SA, SB. split; [exact FL1|].
    intros os' ? ? ? Q. change [Sending4 a m; Rejected4 a m sent] with ([Sending4 a m] ++ [Rejected4 a m sent]) in Q.
    rewrite app_assoc in Q. apply app_inj_tail in Q. destruct Q as [_ Q]. discriminate.
  - destruct (TWO _ _ _ _ _ CV) as (s1 & s2 & CV1 & S1 & S2).
    destruct (IH s1 CV1) as (QQ & FL0 & _). destruct (SND _ _ _ _ _ CV1 S1 QQ FL0) as (FL1 & IM & text & QA & QB & IV).
    apply step_losing in S2. destruct S2 as (SA & SB & QB' & x & QA').
    rewrite QA in QA'. injection QA' as _ QA'.
    split; [apply (quiet_of a); congruence|]. rewrite SA, SB. split; [exact FL1|].
    intros os' ? ? ? Q. change [Sending4 a m; Losing4 a] with ([Sending4 a m] ++ [Losing4 a]) in Q.
    rewrite app_assoc in Q. apply app_inj_tail in Q. destruct Q as [_ Q]. discriminate.
  - destruct (IH s CV) as (QQ & _ & F2). split; [exact QQ|]. rewrite Bool.negb_involutive.
    split; [eapply F2; reflexivity|].
    intros os' ? ? ? Q. apply app_inj_tail in Q. destruct Q as [_ Q]. injection Q as Q _ _ _. now destruct a.
Qed.

(* What happens to the oldest message under way. *)
Lemma arrival4 s0 os s a m text r now : conversation4 C ta tb s0 os s -> sent_by a s = (m, text) :: r ->
  let y := side (negb a) s in let auth := encode_authenticator_data4 (tag_of a) (tag_of (negb a)) m in
  (exists y', decrypt4 C y m auth now = (y', Ok text)) \/
  (d4_i m + 1 < dr_i y /\ decrypt4 C y m auth now = (y, Err UserError)) \/
  (d4_dh m = Some (mx_public_dh (dr_shared y)) /\ decrypt4 C y m auth now = (y, Err ProtocolViolation)).
Proof.
  intros CV Q y auth. pose proof (conversation_invs _ _ _ a CV) as IV. unfold invs in IV. rewrite Q in IV.
  destruct (arrive _ _ _ _ _ _ _ _ now IV) as [[H1 H2]|[[_ H]|[(_ & _ & H)|(_ & H1 & H2)]]]; auto.
Qed.

Lemma floor_delivers s0 os s a ig text rnd m k now :
  conversation4 C ta tb s0 os s -> floor4 a os ->
  encrypt4 C (tag_of a) (tag_of (negb a)) (side a s) ig text [] rnd = Ok (m, k) ->
  let y := side (negb a) s in let auth := encode_authenticator_data4 (tag_of a) (tag_of (negb a)) m in
  d4_dh m <> Some (mx_public_dh (dr_shared y)) ->
  exists y', decrypt4 C y m auth now = (y', Ok text).
Proof.
  intros CV FL E y auth ND. destruct (floor_inv _ _ _ _ CV FL) as ([Q1 Q2] & F & _).
  pose proof (conversation_invs _ _ _ a CV) as IV. unfold invs in IV.
  replace (sent_by a s) with (@nil (data4 * bytes)) in IV by (destruct a; cbn; congruence).
  replace (sent_by (negb a) s) with (@nil (data4 * bytes)) in IV by (destruct a; cbn; congruence).
  destruct (floor_send _ _ _ _ _ _ _ _ _ now IV F E) as (_ & _ & [H|H]); [exact H|contradiction].
Qed.
End Floor.

End WithCrypto.
