(* The OTRv4 double ratchet and data messages: what sending and receiving do. *)
From Coq Require Import Lia ZifyN ZifyNat.
From Verif Require Import Base BaseLemmas Types Crypto CryptoProofs Encoding EncodingProofs ClientProfile Messages
  KeyManager KeyManagerProofs DataV3 DataV3Proofs Ratchet DataV4 SpecData4.
Local Open Scope N_scope.

Section WithCrypto.
Context (C : Crypto).

Lemma chain4_shift base n : chain4 C (kdf C 64 USAGE_NEXT_CHAIN_KEY base) n = chain4 C base (S n).
Proof. induction n as [|n IH]; [reflexivity|]. cbn [chain4]. rewrite IH. reflexivity. Qed.

Lemma chain4_add base a b : chain4 C (chain4 C base a) b = chain4 C base (a + b)%nat.
Proof.
  induction b as [|b IH]; [now rewrite Nat.add_0_r|]. rewrite Nat.add_succ_r. cbn [chain4]. now rewrite IH.
Qed.

Lemma ratchet_rotate_ok r r' : ratchet_rotate C r = Ok r' ->
  r' = mkRatchet (kdf C 64 USAGE_NEXT_CHAIN_KEY (ra_chain_key r)) (ra_message_id r + 1) /\
  ra_message_id r <> 4294967295.
Proof.
  unfold ratchet_rotate. destruct (u32_succ _) as [n| |] eqn:E; cbn [bind]; try discriminate.
  apply u32_succ_ok in E. destruct E as [-> NE]. intros H. injection H as <-. auto.
Qed.

Lemma ratchet_rotate_total r : ra_message_id r < 4294967295 ->
  ratchet_rotate C r = Ok (mkRatchet (kdf C 64 USAGE_NEXT_CHAIN_KEY (ra_chain_key r)) (ra_message_id r + 1)).
Proof. intros L. unfold ratchet_rotate. rewrite u32_succ_small by exact L. reflexivity. Qed.

Lemma ratchet_rotate_not_err r e : ratchet_rotate C r <> Err e.
Proof.
  unfold ratchet_rotate. destruct (u32_succ _) eqn:E; cbn [bind]; try discriminate.
  apply u32_succ_not_err in E. contradiction.
Qed.

Lemma ratchet_keys_ok r ek mk : ratchet_keys C r = Ok (ek, mk) ->
  all_zero (ra_chain_key r) = false /\ ek = enc_key4 C (ra_chain_key r) /\ mk = mac_key4 C (ra_chain_key r).
Proof.
  unfold ratchet_keys. destruct (all_zero _); [discriminate|]. intros H. injection H as <- <-. auto.
Qed.

Lemma ratchet_keys_total r : all_zero (ra_chain_key r) = false ->
  ratchet_keys C r = Ok (enc_key4 C (ra_chain_key r), mac_key4 C (ra_chain_key r)).
Proof. intros Z. unfold ratchet_keys. rewrite Z. reflexivity. Qed.

Lemma ratchet_keys_not_err r e : ratchet_keys C r <> Err e.
Proof. unfold ratchet_keys. destruct (all_zero _); discriminate. Qed.

Lemma dr_with_receiver_id d : dr_with_receiver d (dr_receiver d) (dr_reveals d) = d.
Proof. destruct d; reflexivity. Qed.

Lemma fast_forward_ok n : forall d d', fast_forward C n d = Ok d' ->
  d' = dr_with_receiver d
         (mkRatchet (chain4 C (ra_chain_key (dr_receiver d)) n) (ra_message_id (dr_receiver d) + N.of_nat n))
         (dr_reveals d).
Proof.
  induction n as [|n IH]; intros d d' E; cbn [fast_forward] in E.
  - injection E as <-. cbn [chain4]. rewrite N.add_0_r. destruct d as [? ? ? ? []]; reflexivity.
  - unfold dr_rotate_receiver_chainkey in E.
    destruct (ratchet_rotate C (dr_receiver d)) as [r| |] eqn:R; cbn [bind] in E; try discriminate.
    apply ratchet_rotate_ok in R. destruct R as [-> _].
    apply IH in E. rewrite E. cbn [dr_with_receiver dr_receiver ra_chain_key ra_message_id dr_reveals
      dr_created dr_shared dr_root_key dr_sender dr_next dr_i dr_pn].
    rewrite chain4_shift. unfold dr_with_receiver. cbn. do 2 f_equal. lia.
Qed.

Lemma fast_forward_total n : forall d,
  ra_message_id (dr_receiver d) + N.of_nat n <= 4294967295 -> exists d', fast_forward C n d = Ok d'.
Proof.
  induction n as [|n IH]; intros d L; cbn [fast_forward]; [eauto|].
  unfold dr_rotate_receiver_chainkey. rewrite ratchet_rotate_total by lia. cbn [bind].
  apply IH. cbn. lia.
Qed.

Lemma fast_forward_not_err n : forall d e, fast_forward C n d <> Err e.
Proof.
  induction n as [|n IH]; intros d e; cbn [fast_forward]; [discriminate|].
  unfold dr_rotate_receiver_chainkey.
  destruct (ratchet_rotate C (dr_receiver d)) eqn:R; cbn [bind]; try discriminate; [apply IH|].
  apply ratchet_rotate_not_err in R. contradiction.
Qed.

Lemma mixed_next_ok ecdh dh y b third brace sh : mixed_next C ecdh dh y b third brace = Ok sh ->
  pt_verify C y = true /\ dh3_verify C b = true /\
  mx_ecdh sh = ecdh /\ mx_dh sh = dh /\ mx_public_ecdh sh = y /\ mx_public_dh sh = b /\
  all_zero (pt_encode (ecdh_shared C ecdh y)) = false /\ (third = false -> all_zero brace = false) /\
  mx_brace_key sh = (if third then kdf C 32 USAGE_THIRD_BRACE_KEY (biguint_to_bytes_be (dh3_shared C dh b))
                     else kdf C 32 USAGE_BRACE_KEY brace) /\
  mx_k sh = kdf2 C 64 USAGE_SHARED_SECRET (pt_encode (ecdh_shared C ecdh y)) (mx_brace_key sh).
Proof.
  unfold mixed_next. destruct (pt_verify C y); cbn [of_bool bind]; [|discriminate].
  destruct (dh3_verify C b); cbn [of_bool bind]; [|discriminate].
  destruct (all_zero (pt_encode _)); [discriminate|].
  destruct third; cbn [bind].
  - intros H. injection H as <-. cbn. repeat split; auto. discriminate.
  - destruct (all_zero brace); cbn [bind]; [discriminate|]. intros H. injection H as <-. cbn. repeat split; auto.
Qed.

Lemma mixed_next_total ecdh dh y b third brace :
  pt_verify C y = true -> dh3_verify C b = true ->
  all_zero (pt_encode (ecdh_shared C ecdh y)) = false -> (third = false -> all_zero brace = false) ->
  exists sh, mixed_next C ecdh dh y b third brace = Ok sh.
Proof.
  intros V1 V2 Z1 Z2. unfold mixed_next. rewrite V1, V2. cbn [of_bool bind]. rewrite Z1.
  destruct third; cbn [bind]; [eauto|]. rewrite Z2 by reflexivity. cbn [bind]. eauto.
Qed.

Lemma expect_ok {A} (r : res A) a : expect r = Ok a -> r = Ok a.
Proof. destruct r; cbn; congruence. Qed.

Lemma rotate_sender_ok d er dr now d' : dr_rotate_sender C d er dr now = Ok d' ->
  exists ecdh sh,
    dr_next d = SENDER /\ ecdh_generate C er = Ok ecdh /\
    mixed_next C ecdh (if dr_i d mod 3 =? 0 then dh3_generate C dr else mx_dh (dr_shared d))
      (mx_public_ecdh (dr_shared d)) (mx_public_dh (dr_shared d)) (dr_i d mod 3 =? 0)
      (mx_brace_key (dr_shared d)) = Ok sh /\
    d' = mkDR now sh (kdf2 C 64 USAGE_ROOT_KEY (dr_root_key d) (mx_k sh))
          (mkRatchet (kdf2 C 64 USAGE_CHAIN_KEY (dr_root_key d) (mx_k sh)) 0)
          (dr_receiver d) RECEIVER (dr_i d + 1) (ra_message_id (dr_sender d)) (dr_reveals d) /\
    dr_i d <> 4294967295.
Proof.
  unfold dr_rotate_sender. destruct (dr_next d) eqn:NX; cbn [selector_eqb negb]; [|discriminate].
  unfold mixed_rotate_keypairs.
  destruct (ecdh_generate C er) as [ecdh| |]; cbn [bind]; try discriminate.
  destruct (expect _) as [sh| |] eqn:X; cbn [bind]; try discriminate. apply expect_ok in X.
  destruct (u32_succ _) as [i| |] eqn:U; cbn [bind]; try discriminate.
  apply u32_succ_ok in U. destruct U as [-> NE]. intros H. injection H as <-.
  exists ecdh, sh. auto.
Qed.

Lemma rotate_sender_not_err d er dr now e : ecdh_generate C er <> Err e ->
  dr_rotate_sender C d er dr now <> Err e.
Proof.
  intros G. unfold dr_rotate_sender. destruct (negb _); [discriminate|]. unfold mixed_rotate_keypairs.
  destruct (ecdh_generate C er) as [ecdh| |] eqn:EG; cbn [bind]; try congruence; try discriminate.
  destruct (mixed_next _ _ _ _ _ _ _); cbn [expect bind]; try discriminate.
  destruct (u32_succ _) eqn:U; cbn [bind]; try discriminate.
  apply u32_succ_not_err in U. contradiction.
Qed.

Lemma rotate_receiver_ok d y b now d' : dr_rotate_receiver C d y b now = Ok d' ->
  exists sh,
    dr_next d = RECEIVER /\ (dr_i d mod 3 =? 0) = negb (b =? mx_public_dh (dr_shared d)) /\
    mixed_next C (mx_ecdh (dr_shared d)) (mx_dh (dr_shared d)) y b (dr_i d mod 3 =? 0)
      (mx_brace_key (dr_shared d)) = Ok sh /\
    d' = mkDR now sh (kdf2 C 64 USAGE_ROOT_KEY (dr_root_key d) (mx_k sh)) (dr_sender d)
          (mkRatchet (kdf2 C 64 USAGE_CHAIN_KEY (dr_root_key d) (mx_k sh)) 0)
          SENDER (dr_i d + 1) (dr_pn d) (dr_reveals d).
Proof.
  unfold dr_rotate_receiver. destruct (dr_next d) eqn:NX; cbn [selector_eqb negb]; [discriminate|].
  destruct (b =? 0); [discriminate|].
  destruct (Bool.eqb _ _) eqn:EB; cbn [negb]; [|discriminate]. apply eqb_prop in EB.
  unfold mixed_rotate_others. rewrite EB at 1. rewrite Bool.eqb_reflx. cbn [negb].
  destruct (mixed_next _ _ _ _ _ _ _) as [sh| |] eqn:X; cbn [bind]; try discriminate.
  destruct (u32_succ _) as [i| |] eqn:U; cbn [bind]; try discriminate.
  apply u32_succ_ok in U. destruct U as [-> NE]. intros H. injection H as <-.
  exists sh. auto.
Qed.

Lemma rotate_receiver_total d y b now sh :
  dr_next d = RECEIVER -> b <> 0 -> (dr_i d mod 3 =? 0) = negb (b =? mx_public_dh (dr_shared d)) ->
  mixed_next C (mx_ecdh (dr_shared d)) (mx_dh (dr_shared d)) y b (dr_i d mod 3 =? 0)
      (mx_brace_key (dr_shared d)) = Ok sh ->
  dr_i d < 4294967295 ->
  exists d', dr_rotate_receiver C d y b now = Ok d'.
Proof.
  intros NX NZ EB X L. unfold dr_rotate_receiver. rewrite NX. cbn [selector_eqb negb].
  destruct (N.eqb_spec b 0); [contradiction|].
  rewrite <- EB, Bool.eqb_reflx. cbn [negb]. unfold mixed_rotate_others.
  rewrite <- EB, Bool.eqb_reflx. cbn [negb]. rewrite X. cbn [bind]. rewrite u32_succ_small by exact L.
  cbn [bind]. eauto.
Qed.

(** ** Receiving *)

(* the state after accepting a message that was read with [ck] *)
Inductive accepted4 (d : double_ratchet) (m : data4) (now : N) (ck : bytes) : double_ratchet -> Prop :=
| acc_current :
    d4_i m + 1 = dr_i d -> ra_message_id (dr_receiver d) <= d4_j m ->
    ck = chain4 C (ra_chain_key (dr_receiver d)) (N.to_nat (d4_j m - ra_message_id (dr_receiver d))) ->
    accepted4 d m now ck
      (dr_with_receiver d (mkRatchet (kdf C 64 USAGE_NEXT_CHAIN_KEY ck) (d4_j m + 1))
         (dr_reveals d ++ mac_key4 C ck))
| acc_next sh dh :
    d4_i m = dr_i d -> dr_next d = RECEIVER ->
    dh = match d4_dh m with Some v => v | None => mx_public_dh (dr_shared d) end ->
    (dr_i d mod 3 =? 0) = is_some (d4_dh m) ->
    (forall v, d4_dh m = Some v -> v <> mx_public_dh (dr_shared d)) ->
    mixed_next C (mx_ecdh (dr_shared d)) (mx_dh (dr_shared d)) (d4_ecdh m) dh
       (dr_i d mod 3 =? 0) (mx_brace_key (dr_shared d)) = Ok sh ->
    ck = chain4 C (kdf2 C 64 USAGE_CHAIN_KEY (dr_root_key d) (mx_k sh)) (N.to_nat (d4_j m)) ->
    accepted4 d m now ck
      (mkDR now sh (kdf2 C 64 USAGE_ROOT_KEY (dr_root_key d) (mx_k sh)) (dr_sender d)
         (mkRatchet (kdf C 64 USAGE_NEXT_CHAIN_KEY ck) (d4_j m + 1))
         SENDER (dr_i d + 1) (dr_pn d) (dr_reveals d ++ mac_key4 C ck)).

Lemma accepted4_reads d m now ck d' : accepted4 d m now ck d' -> reads_with4 C d m ck.
Proof.
  intros [I J K|sh dh I NX DH _ _ X K]; [left; auto|]. right. split; [exact I|]. split; [exact NX|].
  exists dh, sh. auto.
Qed.

Lemma speculate4_ok d m now s : speculate4 C d m now = Ok s ->
  (d4_i m + 1 = dr_i d /\ ra_message_id (dr_receiver d) <= d4_j m /\ s = d) \/
  (d4_i m = dr_i d /\ dr_next d = RECEIVER /\
   (dr_i d mod 3 =? 0) = is_some (d4_dh m) /\ (forall v, d4_dh m = Some v -> v <> mx_public_dh (dr_shared d)) /\
   dr_rotate_receiver C d (d4_ecdh m)
     (match d4_dh m with Some v => v | None => mx_public_dh (dr_shared d) end) now = Ok s).
Proof.
  unfold speculate4. destruct (N.ltb_spec (dr_i d) (d4_i m)) as [|GE]; [discriminate|].
  destruct (N.ltb_spec (d4_i m) (dr_i d - 1)) as [|GE1]; cbn [orb]; [discriminate|].
  destruct (_ && _) eqn:A; [discriminate|].
  destruct (N.eqb_spec (d4_i m) (dr_i d)) as [EI|NI].
  - destruct (dr_next d) eqn:NX; cbn [selector_eqb negb]; [discriminate|].
    destruct (Bool.eqb _ _) eqn:EB; cbn [negb]; [|discriminate]. apply eqb_prop in EB.
    intros H. right. split; [exact EI|]. split; [reflexivity|].
    rewrite EI in EB. split; [exact EB|].
    destruct (d4_dh m) as [v|]; [|split; [intros; discriminate|exact H]].
    destruct (N.eqb_spec v (mx_public_dh (dr_shared d))); [discriminate|].
    split; [intros ? Q; injection Q as <-; assumption|exact H].
  - intros H. injection H as <-. left. apply andb_false_iff in A.
    rewrite N.eqb_neq, N.ltb_ge in A. split; [lia|]. split; [lia|reflexivity].
Qed.

Lemma decrypt4_ok d m auth now d' text : decrypt4 C d m auth now = (d', Ok text) ->
  exists ck, accepted4 d m now ck d' /\ all_zero ck = false /\
    d4_authenticator m = kdf2 C 64 USAGE_AUTHENTICATOR (mac_key4 C ck) auth /\
    any_nonzero (d4_authenticator m) = true /\
    text = chacha_crypt C (extract_encryption_key (enc_key4 C ck)) (d4_encrypted m).
Proof.
  unfold decrypt4.
  destruct (speculate4 C d m now) as [s| |] eqn:S; cbn [bind]; try discriminate.
  destruct (fast_forward C _ s) as [s2| |] eqn:F; cbn [bind]; try discriminate.
  apply fast_forward_ok in F.
  destruct (ratchet_keys C (dr_receiver s2)) as [[ek mk]| |] eqn:K; cbn [bind]; try discriminate.
  destruct (ct_compare _ _) eqn:CT; cbn [of_bool bind]; [|discriminate].
  unfold dr_confirm_receiver_keys. rewrite K. cbn [bind].
  destruct (ratchet_rotate C (dr_receiver s2)) as [r| |] eqn:R; cbn [bind]; try discriminate.
  intros H. injection H as <- <-.
  apply ratchet_keys_ok in K. destruct K as (Z & -> & ->).
  apply ratchet_rotate_ok in R. destruct R as [-> NE].
  apply ct_compare_true in CT. destruct CT as [CT NZ].
  exists (ra_chain_key (dr_receiver s2)).
  split; [|split; [exact Z|split; [now rewrite CT|split; [now rewrite <- CT|reflexivity]]]].
  apply speculate4_ok in S. destruct S as [(I & J & ->)|(I & NX & TH & DH & RR)].
  - subst s2. cbn [dr_receiver dr_with_receiver ra_chain_key ra_message_id] in *.
    replace (ra_message_id (dr_receiver d) + N.of_nat (N.to_nat (d4_j m - ra_message_id (dr_receiver d))) + 1)
      with (d4_j m + 1) by lia.
    exact (acc_current d m now _ I J eq_refl).
  - apply rotate_receiver_ok in RR. destruct RR as (sh & _ & EB & X & ->).
    subst s2. cbn [dr_receiver dr_with_receiver ra_chain_key ra_message_id dr_reveals dr_created dr_shared
      dr_root_key dr_sender dr_next dr_i dr_pn] in *.
    rewrite N.sub_0_r, N2Nat.id, N.add_0_l in *. unfold dr_with_receiver. cbn.
    eapply acc_next; eauto.
Qed.

Lemma decrypt4_err d m auth now d' e : decrypt4 C d m auth now = (d', Err e) -> d' = d.
Proof.
  unfold decrypt4. destruct (bind _ _) as [[s c]| |]; intros H; injection H; congruence.
Qed.

Lemma reads_with4_unique d m ck1 ck2 : dr_i d <> 0 \/ True ->
  reads_with4 C d m ck1 -> reads_with4 C d m ck2 -> ck1 = ck2.
Proof.
  intros _ [(I1 & J1 & ->)|(I1 & N1 & dh1 & s1 & D1 & X1 & ->)] [(I2 & J2 & ->)|(I2 & N2 & dh2 & s2 & D2 & X2 & ->)];
    try lia; [reflexivity|].
  subst. rewrite X1 in X2. injection X2 as ->. reflexivity.
Qed.

Lemma authentic4_unique d m a1 a2 k1 k2 : authentic4 C d m a1 k1 -> authentic4 C d m a2 k2 -> k1 = k2.
Proof.
  intros (c1 & R1 & -> & _) (c2 & R2 & -> & _).
  rewrite (reads_with4_unique d m c1 c2 (or_intror I) R1 R2). reflexivity.
Qed.

Lemma decrypt4_authentic d m auth now d' text : decrypt4 C d m auth now = (d', Ok text) ->
  exists mk, authentic4 C d m auth mk.
Proof.
  intros E. apply decrypt4_ok in E. destruct E as (ck & A & _ & AU & NZ & _).
  exists (mac_key4 C ck), ck. split; [now apply accepted4_reads in A|]. auto.
Qed.

(* A message that verifies is accepted *)
Lemma decrypt4_current d m auth now ck :
  d4_i m + 1 = dr_i d -> ra_message_id (dr_receiver d) <= d4_j m -> d4_j m < 4294967295 ->
  ck = chain4 C (ra_chain_key (dr_receiver d)) (N.to_nat (d4_j m - ra_message_id (dr_receiver d))) ->
  all_zero ck = false ->
  d4_authenticator m = kdf2 C 64 USAGE_AUTHENTICATOR (mac_key4 C ck) auth ->
  any_nonzero (d4_authenticator m) = true ->
  decrypt4 C d m auth now
  = (dr_with_receiver d (mkRatchet (kdf C 64 USAGE_NEXT_CHAIN_KEY ck) (d4_j m + 1))
       (dr_reveals d ++ mac_key4 C ck),
     Ok (chacha_crypt C (extract_encryption_key (enc_key4 C ck)) (d4_encrypted m))).
Proof.
  intros I J L K Z A NZ.
  assert (S : speculate4 C d m now = Ok d).
  { unfold speculate4. destruct (N.ltb_spec (dr_i d) (d4_i m)); [lia|].
    destruct (N.ltb_spec (d4_i m) (dr_i d - 1)); [lia|]. cbn [orb].
    destruct (N.ltb_spec (d4_j m) (ra_message_id (dr_receiver d))); [lia|]. rewrite andb_false_r.
    destruct (N.eqb_spec (d4_i m) (dr_i d)); [lia|]. reflexivity. }
  unfold decrypt4. rewrite S. cbn [bind].
  destruct (fast_forward_total (N.to_nat (d4_j m - ra_message_id (dr_receiver d))) d) as [s2 F]; [lia|].
  rewrite F. cbn [bind]. apply fast_forward_ok in F. rewrite <- K in F.
  assert (RC : dr_receiver s2 = mkRatchet ck (d4_j m)).
  { rewrite F. cbn. f_equal. lia. }
  rewrite (ratchet_keys_total (dr_receiver s2)) by (rewrite RC; exact Z). cbn [bind].
  assert (X : ct_compare (kdf2 C 64 USAGE_AUTHENTICATOR (mac_key4 C (ra_chain_key (dr_receiver s2))) auth)
                (d4_authenticator m) = true).
  { rewrite RC. cbn [ra_chain_key]. apply ct_compare_true. rewrite <- A. auto. }
  rewrite X. cbn [of_bool bind]. unfold dr_confirm_receiver_keys.
  rewrite (ratchet_keys_total (dr_receiver s2)) by (rewrite RC; exact Z). cbn [bind].
  rewrite ratchet_rotate_total by (rewrite RC; exact L). cbn [bind]. rewrite RC. cbn [ra_chain_key ra_message_id].
  subst s2. reflexivity.
Qed.

Lemma decrypt4_next d m auth now ck sh dh :
  d4_i m = dr_i d -> dr_next d = RECEIVER -> ra_message_id (dr_receiver d) <= d4_j m \/ dr_i d <> 0 ->
  d4_j m < 4294967295 -> dr_i d < 4294967295 ->
  dh = match d4_dh m with Some v => v | None => mx_public_dh (dr_shared d) end -> dh <> 0 ->
  (dr_i d mod 3 =? 0) = is_some (d4_dh m) ->
  (forall v, d4_dh m = Some v -> v <> mx_public_dh (dr_shared d)) ->
  mixed_next C (mx_ecdh (dr_shared d)) (mx_dh (dr_shared d)) (d4_ecdh m) dh
       (dr_i d mod 3 =? 0) (mx_brace_key (dr_shared d)) = Ok sh ->
  ck = chain4 C (kdf2 C 64 USAGE_CHAIN_KEY (dr_root_key d) (mx_k sh)) (N.to_nat (d4_j m)) ->
  all_zero ck = false ->
  d4_authenticator m = kdf2 C 64 USAGE_AUTHENTICATOR (mac_key4 C ck) auth ->
  any_nonzero (d4_authenticator m) = true ->
  exists d', decrypt4 C d m auth now
  = (d', Ok (chacha_crypt C (extract_encryption_key (enc_key4 C ck)) (d4_encrypted m))).
Proof.
  intros I NX J L LI D DNZ TH FR X K Z A NZ.
  assert (EB : (dr_i d mod 3 =? 0) = negb (dh =? mx_public_dh (dr_shared d))).
  { rewrite TH. subst dh. destruct (d4_dh m) as [v|]; cbn [is_some].
    - destruct (N.eqb_spec v (mx_public_dh (dr_shared d))) as [Q|]; [|reflexivity].
      exfalso. now apply (FR v eq_refl).
    - now rewrite N.eqb_refl. }
  destruct (rotate_receiver_total d (d4_ecdh m) dh now sh NX DNZ EB X LI) as [s RR].
  assert (S : speculate4 C d m now = Ok s).
  { unfold speculate4. destruct (N.ltb_spec (dr_i d) (d4_i m)); [lia|].
    destruct (N.ltb_spec (d4_i m) (dr_i d - 1)); [lia|]. cbn [orb].
    replace ((d4_i m =? dr_i d - 1) && (d4_j m <? ra_message_id (dr_receiver d))) with false.
    2: { symmetry. apply andb_false_iff. rewrite N.eqb_neq, N.ltb_ge. lia. }
    destruct (N.eqb_spec (d4_i m) (dr_i d)); [|lia]. rewrite NX. cbn [selector_eqb negb].
    rewrite I, TH. unfold is_some. rewrite Bool.eqb_reflx. cbn [negb].
    destruct (d4_dh m) as [v|] eqn:DM; [|now rewrite <- D].
    destruct (N.eqb_spec v (mx_public_dh (dr_shared d))) as [Q|]; [|now rewrite <- D].
    exfalso. now apply (FR v eq_refl). }
  unfold decrypt4. rewrite S. cbn [bind].
  apply rotate_receiver_ok in RR. destruct RR as (sh' & _ & _ & X' & RS).
  rewrite X in X'. injection X' as <-.
  assert (RC0 : dr_receiver s = mkRatchet (kdf2 C 64 USAGE_CHAIN_KEY (dr_root_key d) (mx_k sh)) 0)
    by (rewrite RS; reflexivity).
  rewrite RC0. cbn [ra_message_id]. rewrite N.sub_0_r.
  destruct (fast_forward_total (N.to_nat (d4_j m)) s) as [s2 F]; [rewrite RC0; cbn; lia|].
  rewrite F. cbn [bind]. apply fast_forward_ok in F. rewrite RC0 in F. cbn [ra_chain_key ra_message_id] in F.
  rewrite <- K in F.
  assert (RC : dr_receiver s2 = mkRatchet ck (d4_j m)).
  { rewrite F. cbn. f_equal. lia. }
  rewrite (ratchet_keys_total (dr_receiver s2)) by (rewrite RC; exact Z). cbn [bind].
  assert (Y : ct_compare (kdf2 C 64 USAGE_AUTHENTICATOR (mac_key4 C (ra_chain_key (dr_receiver s2))) auth)
                (d4_authenticator m) = true).
  { rewrite RC. cbn [ra_chain_key]. apply ct_compare_true. rewrite <- A. auto. }
  rewrite Y. cbn [of_bool bind]. unfold dr_confirm_receiver_keys.
  rewrite (ratchet_keys_total (dr_receiver s2)) by (rewrite RC; exact Z). cbn [bind].
  rewrite ratchet_rotate_total by (rewrite RC; exact L). cbn [bind]. rewrite RC. cbn [ra_chain_key]. eauto.
Qed.

(** ** Sending *)

(* the ratchet in which the next message is sent, and what it reveals *)
Inductive ready4 (d : double_ratchet) (rnd : send_rnd) (extra : bytes) : double_ratchet -> bytes -> Prop :=
| ready_same : dr_next d = RECEIVER -> ready4 d rnd extra d extra
| ready_new d1 :
    dr_next d = SENDER ->
    dr_rotate_sender C (fst (dr_collect_reveals d)) (sr_ecdh rnd) (sr_dh rnd) (sr_now rnd) = Ok d1 ->
    ready4 d rnd extra d1 (extra ++ dr_reveals d).

Definition dr_with_sender (d : double_ratchet) (s : ratchet) : double_ratchet :=
  mkDR (dr_created d) (dr_shared d) (dr_root_key d) s (dr_receiver d) (dr_next d)
       (dr_i d) (dr_pn d) (dr_reveals d).

Lemma encrypt4_ok our their d ig text extra rnd m d' :
  encrypt4 C our their d ig text extra rnd = Ok (m, d') ->
  exists d1 rv, ready4 d rnd extra d1 rv /\ dr_next d1 = RECEIVER /\
    let ck := ra_chain_key (dr_sender d1) in
    all_zero ck = false /\ ra_message_id (dr_sender d1) <> 4294967295 /\
    d' = dr_with_sender d1 (mkRatchet (kdf C 64 USAGE_NEXT_CHAIN_KEY ck) (ra_message_id (dr_sender d1) + 1)) /\
    d4_ignore_unreadable m = ig /\ d4_pn m = dr_pn d1 /\ d4_i m = dr_i d1 - 1 /\
    d4_j m = ra_message_id (dr_sender d1) /\ d4_ecdh m = ec_public (mx_ecdh (dr_shared d1)) /\
    d4_dh m = (if d4_i m mod 3 =? 0 then Some (dh3_public (mx_dh (dr_shared d1))) else None) /\
    d4_encrypted m = chacha_crypt C (extract_encryption_key (enc_key4 C ck)) text /\
    d4_authenticator m = kdf2 C 64 USAGE_AUTHENTICATOR (mac_key4 C ck) (encode_authenticator_data4 our their m) /\
    d4_revealed m = rv /\ data4_validate C m = Ok tt.
Proof.
  unfold encrypt4. intros E.
  assert (R : exists d1 rv, ready4 d rnd extra d1 rv /\
     (if selector_eqb (dr_next d) SENDER
      then let '(d, r) := dr_collect_reveals d in
           let* d := dr_rotate_sender C d (sr_ecdh rnd) (sr_dh rnd) (sr_now rnd) in Ok (d, extra ++ r)
      else Ok (d, extra)) = Ok (d1, rv)).
  { destruct (dr_next d) eqn:NX; cbn [selector_eqb] in *.
    - unfold dr_collect_reveals at 1 in E. unfold dr_collect_reveals at 1.
      destruct (dr_rotate_sender _ _ _ _ _) as [d1| |] eqn:RS; cbn [bind] in *; try discriminate.
      exists d1, (extra ++ dr_reveals d). split; [|reflexivity]. apply ready_new; [exact NX|exact RS].
    - exists d, extra. split; [now constructor|reflexivity]. }
  destruct R as (d1 & rv & R & Q). rewrite Q in E. cbn [bind] in E. clear Q.
  exists d1, rv. split; [exact R|].
  destruct (ratchet_keys C (dr_sender d1)) as [[ek mk]| |] eqn:K; cbn [bind] in E; try discriminate.
  apply ratchet_keys_ok in K. destruct K as (Z & -> & ->).
  set (m0 := mkData4 _ _ _ _ _ _ _ (kdf2 _ _ _ _ _) _) in E.
  destruct (data4_validate C m0) as [[]| |] eqn:V; cbn [expect bind] in E; try discriminate.
  unfold dr_rotate_sender_chainkey in E.
  destruct (dr_next d1) eqn:NX; cbn [selector_eqb negb] in E; [discriminate|].
  destruct (ratchet_rotate C (dr_sender d1)) as [s| |] eqn:RR; cbn [bind] in E; try discriminate.
  apply ratchet_rotate_ok in RR. destruct RR as [-> NE].
  assert (EM : m = m0) by congruence.
  split; [reflexivity|]. split; [exact Z|]. split; [exact NE|].
  split; [unfold dr_with_sender; congruence|].
  subst m. split; [reflexivity|]. split; [reflexivity|]. split; [reflexivity|]. split; [reflexivity|].
  split; [reflexivity|]. split; [reflexivity|]. split; [reflexivity|]. split; [reflexivity|].
  split; [reflexivity|exact V].
Qed.

Lemma validate4_ok m : data4_validate C m = Ok tt ->
  (d4_i m mod 3 =? 0) = is_some (d4_dh m) /\ (forall v, d4_dh m = Some v -> dh3_verify C v = true) /\
  pt_verify C (d4_ecdh m) = true /\ any_nonzero (d4_authenticator m) = true /\
  (d4_i m <> 0 -> d4_j m = 0 -> d4_revealed m <> []).
Proof.
  unfold data4_validate. destruct (Bool.eqb _ _) eqn:EB; cbn [negb]; [|discriminate]. apply eqb_prop in EB.
  intros H. split; [exact EB|].
  destruct (d4_dh m) as [v|]; cbn [bind] in H.
  - destruct (dh3_verify C v) eqn:V; cbn [of_bool bind] in H; [|discriminate].
    split; [intros ? Q; injection Q as <-; exact V|]. clear EB.
    destruct (pt_verify C (d4_ecdh m)) eqn:PV; cbn [of_bool bind] in H; [|discriminate].
    split; [reflexivity|].
    destruct (Nat.eqb_spec (Nat.modulo (length (d4_revealed m)) 64) 0) as [M|]; cbn [negb] in H; [|discriminate].
    destruct (_ && _ && _) eqn:A; [discriminate|].
    destruct (all_zero _) eqn:Z; [discriminate|]. split; [unfold any_nonzero; now rewrite Z|].
    intros N1 N2 N3. rewrite N2, N3 in A. cbn in A.
    destruct (N.ltb_spec 0 (d4_i m)); [discriminate|lia].
  - split; [intros; discriminate|]. clear EB.
    destruct (pt_verify C (d4_ecdh m)) eqn:PV; cbn [of_bool bind] in H; [|discriminate].
    split; [reflexivity|].
    destruct (Nat.eqb_spec (Nat.modulo (length (d4_revealed m)) 64) 0) as [M|]; cbn [negb] in H; [|discriminate].
    destruct (_ && _ && _) eqn:A; [discriminate|].
    destruct (all_zero _) eqn:Z; [discriminate|]. split; [unfold any_nonzero; now rewrite Z|].
    intros N1 N2 N3. rewrite N2, N3 in A. cbn in A.
    destruct (N.ltb_spec 0 (d4_i m)); [discriminate|lia].
Qed.

End WithCrypto.
