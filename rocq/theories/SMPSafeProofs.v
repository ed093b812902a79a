(* The OTRv3 SMP against arbitrary messages. *)
From Verif Require Import Base BaseLemmas Types Crypto Encoding SpecWire EncodingProofs CryptoProofs EdGroup SMP SpecSMP
  SMPProofs SMPRunProofs.
From Coq Require Import Lia ZifyN ZifyNat Znumtheory.
Local Open Scope N_scope.

Section WithCrypto.
Context (C : Crypto) (GO : smp_group C).
Local Notation p := (c_dh_p C).
Local Notation q := (dh_q C).
Local Notation g := (c_dh_g C).

Definition nz (v : N) : Prop := ~ (Z.of_N p | Z.of_N v)%Z.

Lemma nz_elem v : elem C v -> nz v.
Proof.
  intros [A B] D. pose proof (p_pos C GO). destruct GO as (_ & _ & G & _).
  apply Z.divide_pos_le in D; lia.
Qed.
Lemma nz_g : nz g.
Proof. intros D. destruct GO as (_ & _ & G & _). apply Z.divide_pos_le in D; lia. Qed.
Lemma nz_mul a b : nz a -> nz b -> nz (a * b).
Proof.
  intros A B D. rewrite N2Z.inj_mul in D. apply prime_mult in D; [|apply GO]. destruct D; contradiction.
Qed.
Lemma nz_one : nz 1.
Proof. intros D. pose proof (p_pos C GO). apply Z.divide_pos_le in D; lia. Qed.
Lemma nz_pow a e : nz a -> nz (a ^ e).
Proof.
  intros A. induction e as [|e IH] using N.peano_ind; [rewrite N.pow_0_r; apply nz_one|].
  rewrite N.pow_succ_r by lia. now apply nz_mul.
Qed.
Lemma nz_mod a : nz a -> nz (a mod p).
Proof.
  intros A [k D]. apply A. exists (Z.of_N (a / p) + k)%Z. pose proof (N.div_mod a p (p_nz C GO)). nia.
Qed.
Lemma nz_pw a e : nz a -> nz (pw C a e).
Proof.
  intros A. unfold pw. rewrite modpow_spec by apply (p_nz C GO). now apply nz_mod, nz_pow.
Qed.

Lemma inv_nz v : nz v -> exists i, dh_inv C v = Ok i /\ mm C (v * i) = 1 /\ i < p.
Proof.
  intros A. apply (inv_exists C GO). pose proof (p_pos C GO).
  assert (R : rel_prime (Z.of_N p) (Z.of_N v)) by (apply prime_rel_prime; [apply GO|exact A]).
  apply rel_prime_bezout in R. destruct R as [u w B].
  exists (Z.to_N (w mod Z.of_N p)). unfold mm.
  pose proof (Z.mod_pos_bound w (Z.of_N p) ltac:(lia)).
  apply N2Z.inj. rewrite N2Z.inj_mod, N2Z.inj_mul, Z2N.id by lia.
  rewrite Zmult_mod_idemp_r.
  replace (Z.of_N v * w)%Z with (1 + (- u) * Z.of_N p)%Z by lia. rewrite Z_mod_plus_full. apply Z.mod_1_l. lia.
Qed.

(* dividing and multiplying back *)
Lemma div_back a b i : mm C (b * i) = 1 -> (mm C (a * i) * b) mod p = a mod p.
Proof.
  unfold mm. intros M. rewrite N.mul_mod_idemp_l by apply (p_nz C GO).
  replace (a * i * b) with (a * (b * i)) by ring.
  rewrite <- N.mul_mod_idemp_r, M, N.mul_1_r by apply (p_nz C GO). reflexivity.
Qed.

(** ** Reading the checks *)

Lemma ob_inv b (k : unit -> res smp_outcome) r : bind (of_bool b) k = Ok r -> b = true /\ k tt = Ok r.
Proof. destruct b; [intros H; split; [reflexivity|exact H]|discriminate]. Qed.
Lemma same_inv a b (k : unit -> res smp_outcome) r : bind (dh_same a b) k = Ok r -> a = b /\ k tt = Ok r.
Proof. unfold dh_same. intros H. apply ob_inv in H. destruct H as [E K]. apply N.eqb_eq in E. auto. Qed.
Lemma expo_true v : dh_verify_exponent C v = true -> expo C v.
Proof. unfold dh_verify_exponent. rewrite Bool.andb_true_iff, N.leb_le, N.ltb_lt. auto. Qed.
Lemma elem_true v : dh_verify_public_key C v = true -> elem C v.
Proof. unfold dh_verify_public_key. rewrite Bool.andb_true_iff, !N.leb_le. auto. Qed.

Ltac chk H := let E := fresh "K" in
  first [ apply same_inv in H; destruct H as [E H]
        | apply ob_inv in H; destruct H as [E H];
          first [apply expo_true in E | apply elem_true in E | idtac] ].

Lemma pw_pow a e : pw C a e = (a ^ e) mod p.
Proof. unfold pw. apply modpow_spec, (p_nz C GO). Qed.
Lemma mm_pw2 a b c d : mm C (pw C a b * pw C c d) = (a ^ b * c ^ d) mod p.
Proof. unfold mm. rewrite !pw_pow. symmetry. apply N.mul_mod, (p_nz C GO). Qed.
Lemma mm_pw3 a b c d e f : mm C (pw C a b * pw C c d * pw C e f) = (a ^ b * c ^ d * e ^ f) mod p.
Proof.
  unfold mm. rewrite !pw_pow.
  rewrite (N.mul_mod (_ * _) (_ mod p)) by apply (p_nz C GO).
  rewrite <- (N.mul_mod (a ^ b) (c ^ d)), N.mod_mod, <- N.mul_mod by apply (p_nz C GO). reflexivity.
Qed.

(* message 1 *)
Lemma message_1_inv h rnd c t o : smp_message_1 C h rnd c t = Ok o ->
  sm_state c = Expect1 /\
  (o = SmpAborted true \/
   exists g3a g2 g3 b3 Pb Qb r, o = SmpReply (Expect3 g3a g2 g3 b3 Pb Qb) r /\ tlv_type r = 3 /\
     forall s, state_ok C (mkSmp s (Expect3 g3a g2 g3 b3 Pb Qb) (sm_ssid c) (sm_their_fp c))).
Proof.
  unfold smp_message_1. intros H. destruct (sm_state c); try discriminate. split; [reflexivity|].
  destruct (smp1_question t) as [question buf]. apply bind_ok in H. destruct H as ([mpis rest] & RD & H).
  destruct mpis as [|g2a [|c2 [|D2 [|g3a [|c3 [|D3 [|? ?]]]]]]]; try discriminate.
  apply bind_ok in H. destruct H as (? & _ & H). cbv beta in H.
  do 6 chk H. destruct (sh_answer h question) as [secret|]; [|left; congruence]. right.
  apply bind_ok in H. destruct H as (fp & F & H). cbv beta zeta in H.
  eexists _, _, _, _, _, _, _. split; [symmetry; refine (f_equal (fun r => match r with Ok a => a | _ => o end) H)|].
  split; [reflexivity|]. intros s. unfold state_ok. cbn [sm_state sm_their_fp sm_ssid].
  exists g2a, (smp_random C (sr_2 rnd)), (smp_random C (sr_r4 rnd)), fp, secret.
  split; [assumption|]. split; [assumption|]. rewrite mm_pw2, <- !pw_pow. auto.
Qed.

(* message 2 *)
Lemma message_2_inv rnd c t o : state_ok C c -> smp_message_2 C rnd c t = Ok o ->
  (exists x a2 a3, sm_state c = Expect2 x a2 a3) /\
  exists g3b d1 d2 a3 r, o = SmpReply (Expect4 g3b d1 d2 a3) r /\ tlv_type r = 4 /\
     forall s, state_ok C (mkSmp s (Expect4 g3b d1 d2 a3) (sm_ssid c) (sm_their_fp c)).
Proof.
  unfold smp_message_2, state_ok at 1. intros SO H. destruct (sm_state c) as [|x a2 a3| |]; try discriminate.
  split; [eauto|]. destruct SO as (fp & secret & X).
  apply bind_ok in H. destruct H as ([mpis rest] & RD & H).
  destruct mpis as [|g2b [|c2 [|D2 [|g3b [|c3 [|D3 [|Pb [|Qb [|cP [|D5 [|D6 [|? ?]]]]]]]]]]]]; try discriminate.
  do 11 chk H. apply bind_ok in H. destruct H as (qi & Q & H). apply bind_ok in H. destruct H as (pi & P & H).
  cbv beta zeta in H.
  eexists _, _, _, _, _. split; [symmetry; refine (f_equal (fun r => match r with Ok a => a | _ => o end) H)|].
  split; [reflexivity|]. intros s. unfold state_ok. cbn [sm_state sm_their_fp sm_ssid].
  exists g2b, a2, (smp_random C (sr_r4 rnd)), fp, secret, Pb, Qb.
  split; [assumption|]. split; [assumption|]. split; [assumption|]. split; [assumption|].
  destruct (inv_nz Pb (nz_elem _ K5)) as (pi' & P' & MP & _). rewrite P in P'. injection P' as <-.
  destruct (inv_nz Qb (nz_elem _ K6)) as (qi' & Q' & MQ & _). rewrite Q in Q'. injection Q' as <-.
  rewrite !div_back by assumption. rewrite <- X, <- !pw_pow, mm_pw2.
  split; [apply N.mod_small, (pw_lt C GO)|apply N.mod_mod, (p_nz C GO)].
Qed.

(* message 3 *)
Lemma message_3_inv rnd c t o : state_ok C c -> tlv_type t = 4 -> smp_message_3 C rnd c t = Ok o ->
  exists r, tlv_type r = 5 /\ (o = SmpSuccess (Some r) /\ verified_3 C c t \/ o = SmpFailed (Some r)).
Proof.
  unfold smp_message_3, state_ok. intros SO T H. unfold verified_3.
  destruct (sm_state c) as [| |g3a g2 g3 b3 Pb Qb|]; try discriminate.
  destruct SO as (g2a & b2 & r4 & fp & secret & E2 & E3 & G2 & G3 & PB & QB).
  apply bind_ok in H. destruct H as ([mpis rest] & RD & H).
  destruct mpis as [|Pa [|Qa [|cP [|D5 [|D6 [|Ra [|cR [|D7 [|? ?]]]]]]]]]; try discriminate.
  do 7 chk H. apply bind_ok in H. destruct H as (qi & Q & H). cbv beta zeta in H.
  chk H. apply bind_ok in H. destruct H as (pi & P & H). cbv beta zeta in H.
  assert (NP : nz Pb /\ nz Qb).
  { assert (N2 : nz g2) by (rewrite G2; apply nz_mod, nz_pow, nz_elem; assumption).
    assert (N3 : nz g3) by (rewrite G3; apply nz_mod, nz_pow, nz_elem; assumption).
    rewrite PB, QB. split; apply nz_mod; [now apply nz_pow|]. apply nz_mul; apply nz_pow; [apply nz_g|assumption]. }
  destruct NP as [NP NQ].
  destruct (inv_nz Pb NP) as (pi' & P' & MP & LP). rewrite P in P'. injection P' as <-.
  destruct (inv_nz Qb NQ) as (qi' & Q' & MQ & LQ). rewrite Q in Q'. injection Q' as <-.
  assert (LT : forall v, elem C v -> v < p).
  { intros v [_ B]. clear - B GO. pose proof (p_pos C GO). lia. }
  destruct (mm C (Pa * pi) =? pw C Ra b3) eqn:V; [|eexists; split; [|right; symmetry;
    refine (f_equal (fun r => match r with Ok a => a | _ => o end) H)]; reflexivity].
  eexists. split; [|left; split; [symmetry; refine (f_equal (fun r => match r with Ok a => a | _ => o end) H)|]];
    [reflexivity|].
  exists g3a, g2, g3, b3, Pb, Qb, Pa, Qa, cP, D5, D6, Ra, cR, D7, rest, (mm C (Qa * qi)).
  split; [reflexivity|]. split; [exact T|]. split; [exact RD|].
  split; [assumption|]. split; [assumption|]. split; [assumption|].
  split; [assumption|]. split; [assumption|]. split; [assumption|].
  split. { unfold knows_pq. rewrite <- mm_pw2, <- mm_pw3. assumption. }
  split. { rewrite div_back by assumption. apply N.mod_small. now apply LT. }
  split. { unfold same_log. rewrite <- !mm_pw2. assumption. }
  apply N.eqb_eq in V. rewrite <- N.mul_mod_idemp_l, <- pw_pow, <- V by apply (p_nz C GO).
  rewrite div_back by assumption. apply N.mod_small. now apply LT.
Qed.

(* message 4 *)
Lemma message_4_inv c t o : tlv_type t = 5 -> smp_message_4 C c t = Ok o ->
  (o = SmpSuccess None /\ verified_4 C c t) \/
  (o = SmpFailed None /\ exists g3b d1 d2 a3, sm_state c = Expect4 g3b d1 d2 a3).
Proof.
  unfold smp_message_4, verified_4. intros T H.
  destruct (sm_state c) as [| | |g3b d1 d2 a3]; try discriminate.
  apply bind_ok in H. destruct H as ([mpis rest] & RD & H).
  destruct mpis as [|Rb [|cR [|D7 [|? ?]]]]; try discriminate. do 3 chk H.
  destruct (d1 =? pw C Rb a3) eqn:V; [left|right; split; [congruence|eauto]].
  split; [congruence|]. exists g3b, d1, d2, a3, Rb, cR, D7, rest.
  split; [reflexivity|]. split; [exact T|]. split; [exact RD|]. split; [assumption|]. split; [assumption|].
  split. { unfold same_log. rewrite <- !mm_pw2. now symmetry. }
  apply N.eqb_eq in V. now rewrite <- pw_pow.
Qed.

(** ** Errors and panics of the handlers *)

Definition smp_error (r : res smp_outcome) : Prop :=
  r = Err ProtocolViolation \/ r = Err IncompleteMessage \/ r = Err CryptographicViolation.
Definition good (r : res smp_outcome) : Prop := (exists o, r = Ok o) \/ smp_error r.

Lemma good_ob b (k : unit -> res smp_outcome) : (b = true -> good (k tt)) -> good (bind (of_bool b) k).
Proof. intros H. destruct b; [now apply H|]. right. right. now right. Qed.
Lemma good_same a b (k : unit -> res smp_outcome) : good (k tt) -> good (bind (dh_same a b) k).
Proof. intros H. apply good_ob. auto. Qed.
Lemma good_pv : good (Err ProtocolViolation). Proof. right. now left. Qed.

Lemma read_mpi_err buf e : read_mpi buf = Err e -> e = IncompleteMessage.
Proof.
  unfold read_mpi. intros H.
  destruct buf as [|b0 [|b1 [|b2 [|b3 rest]]]]; cbn [read_u32 bind] in H; try congruence.
  destruct (_ =? 0); [discriminate|]. destruct (_ <? _); [congruence|].
  unfold take_bytes in H. destruct (Nat.ltb _ _); cbn [bind] in H; congruence.
Qed.
Lemma read_mpis_err fuel : forall count buf e, read_mpis fuel count buf = Err e -> e = IncompleteMessage.
Proof.
  induction fuel as [|fuel IH]; intros count buf e; cbn [read_mpis]; destruct (count =? 0); try congruence.
  destruct (read_mpi buf) as [[v rest]|e'|] eqn:R; cbn [bind].
  - destruct (read_mpis fuel (count - 1) rest) as [[vs r]|e'|] eqn:R2; cbn [bind]; try congruence.
    intros H. injection H as <-. eauto.
  - intros H. injection H as <-. eapply read_mpi_err; eassumption.
  - discriminate.
Qed.
Lemma good_read buf (k : list N * bytes -> res smp_outcome) : (forall v, good (k v)) -> good (bind (read_mpi_sequence buf) k).
Proof.
  intros H. destruct (read_mpi_sequence buf) as [v|e|] eqn:E; cbn [bind]; [apply H| |].
  - right. right. left. f_equal. unfold read_mpi_sequence in E.
    destruct buf as [|b0 [|b1 [|b2 [|b3 rest]]]]; cbn [read_u32 bind] in E; try congruence.
    eapply read_mpis_err; eassumption.
  - exfalso. now apply (read_mpi_sequence_safe buf).
Qed.
Lemma good_inv v (k : N -> res smp_outcome) : nz v -> (forall i, good (k i)) -> good (bind (dh_inv C v) k).
Proof. intros NZ H. destruct (inv_nz v NZ) as (i & -> & _). apply H. Qed.
Lemma good_done rest (k : unit -> res smp_outcome) : good (k tt) -> good (bind (done rest) k).
Proof. intros H. destruct rest; [exact H|apply good_pv]. Qed.

Ltac gd := first [apply good_ob; intros ? | apply good_same].

Lemma message_1_good h rnd c t k : sh_key h = Some k -> good (smp_message_1 C h rnd c t).
Proof.
  intros K. unfold smp_message_1. destruct (sm_state c); try apply good_pv.
  destruct (smp1_question t) as [question buf]. apply good_read. intros [mpis rest].
  destruct mpis as [|g2a [|c2 [|D2 [|g3a [|c3 [|D3 [|? ?]]]]]]]; try apply good_pv.
  apply good_done. do 6 gd. destruct (sh_answer h question); [|left; eauto].
  unfold host_fp. rewrite K. cbn [bind]. left. eauto.
Qed.
Lemma message_2_good rnd c t : good (smp_message_2 C rnd c t).
Proof.
  unfold smp_message_2. destruct (sm_state c); try apply good_pv. apply good_read. intros [mpis rest].
  destruct mpis as [|g2b [|c2 [|D2 [|g3b [|c3 [|D3 [|Pb [|Qb [|cP [|D5 [|D6 [|? ?]]]]]]]]]]]]; try apply good_pv.
  do 11 gd. apply good_inv; [apply nz_elem, elem_true; assumption|]. intros qi.
  apply good_inv; [apply nz_elem, elem_true; assumption|]. intros pi. left. eauto.
Qed.
Lemma message_3_good rnd c t : state_ok C c -> good (smp_message_3 C rnd c t).
Proof.
  unfold smp_message_3, state_ok. intros SO. destruct (sm_state c) as [| |g3a g2 g3 b3 Pb Qb|]; try apply good_pv.
  destruct SO as (g2a & b2 & r4 & fp & secret & E2 & E3 & G2 & G3 & PB & QB).
  assert (NP : nz Pb /\ nz Qb).
  { assert (N2 : nz g2) by (rewrite G2; apply nz_mod, nz_pow, nz_elem; assumption).
    assert (N3 : nz g3) by (rewrite G3; apply nz_mod, nz_pow, nz_elem; assumption).
    rewrite PB, QB. split; apply nz_mod; [now apply nz_pow|]. apply nz_mul; apply nz_pow; [apply nz_g|assumption]. }
  destruct NP as [NP NQ]. apply good_read. intros [mpis rest].
  destruct mpis as [|Pa [|Qa [|cP [|D5 [|D6 [|Ra [|cR [|D7 [|? ?]]]]]]]]]; try apply good_pv.
  do 7 gd. apply good_inv; [assumption|]. intros qi. gd. apply good_inv; [assumption|]. intros pi. left. eauto.
Qed.
Lemma message_4_good c t : good (smp_message_4 C c t).
Proof.
  unfold smp_message_4. destruct (sm_state c); try apply good_pv. apply good_read. intros [mpis rest].
  destruct mpis as [|Rb [|cR [|D7 [|? ?]]]]; try apply good_pv. do 3 gd. left. eauto.
Qed.

(** ** The handler *)

Definition in_progress (c : smp_context) : Prop := sm_status c = SmpInProgress.
Definition ctx_ok (c : smp_context) : Prop := state_ok C c /\ (in_progress c <-> ~ idle c).

Lemma type_cases t : is_smp3_tlv t = true ->
  tlv_type t = 2 \/ tlv_type t = 7 \/ tlv_type t = 3 \/ tlv_type t = 4 \/ tlv_type t = 5 \/ tlv_type t = 6.
Proof.
  unfold is_smp3_tlv. cbn [existsb]. rewrite !Bool.orb_true_iff, !N.eqb_eq.
  unfold TLV_SMP_1, TLV_SMP_1Q, TLV_SMP_2, TLV_SMP_3, TLV_SMP_4, TLV_SMP_ABORT. intuition congruence.
Qed.

(* every way to end *)
Definition handled (c : smp_context) (t : tlv) (c' : smp_context) (r : option tlv) : Prop :=
  sm_ssid c' = sm_ssid c /\ sm_their_fp c' = sm_their_fp c /\ state_ok C c' /\
  ( (* the run goes on *)
    (exists m, r = Some m /\ expects (sm_state c) (tlv_type t) = true /\ expects (sm_state c') (tlv_type m + 1) = true /\
       ~ idle c' /\
       sm_status c' = (if (tlv_type t =? TLV_SMP_1) || (tlv_type t =? TLV_SMP_1Q) then SmpInProgress else sm_status c) /\
       (tlv_type t = 2 \/ tlv_type t = 7 \/ tlv_type t = 3))
    (* the run is over *)
    \/ (idle c' /\ expects (sm_state c) (tlv_type t) = true /\
        (sm_status c' = SmpCompleted /\ (verified_3 C c t \/ verified_4 C c t)
         \/ sm_status c' = SmpAbortedFor SecretsDiffer) /\
        ((tlv_type t = 4 /\ exists m, r = Some m /\ tlv_type m = 5) \/ (tlv_type t = 5 /\ r = None)))
    (* the run is aborted *)
    \/ (idle c' /\ (exists why, sm_status c' = SmpAbortedFor why) /\ sm_status c' <> SmpAbortedFor SecretsDiffer /\
        r = (if tlv_type t =? TLV_SMP_ABORT then None else Some abort_tlv)) ).

Lemma state_ok_idle c s : sm_state c = Expect1 -> state_ok C (mkSmp s Expect1 (sm_ssid c) (sm_their_fp c)).
Proof. intros _. exact I. Qed.

Lemma handle_cases h rnd c t k : state_ok C c -> sh_key h = Some k -> is_smp3_tlv t = true ->
  exists c' r, smp_handle C h rnd c t = (c', Ok r) /\ handled c t c' r.
Proof.
  intros SO K T. unfold smp_handle.
  assert (AB : forall why d, why <> SecretsDiffer -> d = (if tlv_type t =? TLV_SMP_ABORT then None else Some abort_tlv) ->
    handled c t (mkSmp (SmpAbortedFor why) Expect1 (sm_ssid c) (sm_their_fp c)) d).
  { intros why d W ->. split; [reflexivity|]. split; [reflexivity|]. split; [exact I|]. right. right.
    split; [reflexivity|]. split; [eexists; reflexivity|]. split; [cbn [sm_status]; congruence|reflexivity]. }
  assert (FAIL : forall r, smp_error r -> tlv_type t <> 6 ->
    exists c' o, (match r with
      | Ok (SmpReply st r0) =>
          (mkSmp (if (tlv_type t =? TLV_SMP_1) || (tlv_type t =? TLV_SMP_1Q) then SmpInProgress else sm_status c)
             st (sm_ssid c) (sm_their_fp c), Ok (Some r0))
      | Ok (SmpSuccess r0) => (mkSmp SmpCompleted Expect1 (sm_ssid c) (sm_their_fp c), Ok r0)
      | Ok (SmpFailed r0) => (mkSmp (SmpAbortedFor SecretsDiffer) Expect1 (sm_ssid c) (sm_their_fp c), Ok r0)
      | Ok (SmpAborted true) => (mkSmp (SmpAbortedFor AbortedByUser) Expect1 (sm_ssid c) (sm_their_fp c), Ok (Some abort_tlv))
      | Ok (SmpAborted false) => (mkSmp (SmpAbortedFor AbortReceived) Expect1 (sm_ssid c) (sm_their_fp c), Ok None)
      | Err ProtocolViolation => (mkSmp (SmpAbortedFor AbortViolation) Expect1 (sm_ssid c) (sm_their_fp c), Ok (Some abort_tlv))
      | Err IncompleteMessage => (mkSmp (SmpAbortedFor AbortMalformed) Expect1 (sm_ssid c) (sm_their_fp c), Ok (Some abort_tlv))
      | Err CryptographicViolation => (mkSmp (SmpAbortedFor AbortCrypto) Expect1 (sm_ssid c) (sm_their_fp c), Ok (Some abort_tlv))
      | Err _ => (c, Panic)
      | Panic => (c, Panic)
      end) = (c', Ok o) /\ handled c t c' o).
  { intros r E NT. assert (NB : (tlv_type t =? TLV_SMP_ABORT) = false) by now apply N.eqb_neq.
    destruct E as [-> | [-> | ->]]; eexists _, _; (split; [reflexivity|]); apply AB; try discriminate; now rewrite NB. }
  destruct (type_cases t T) as [E|[E|[E|[E|[E|E]]]]].
  1, 2: (assert (D : smp_dispatch C h rnd c t = smp_message_1 C h rnd c t) by (unfold smp_dispatch; now rewrite E);
    rewrite D; destruct (message_1_good h rnd c t k K) as [[o O]|EO]; [|apply FAIL; [exact EO|rewrite E; discriminate]];
    rewrite O;
    destruct (message_1_inv h rnd c t o O) as [S [-> | (g3a & g2 & g3 & b3 & Pb & Qb & r & -> & TR & SO')]];
    [eexists _, _; split; [reflexivity|]; apply AB; [discriminate|now rewrite E]|];
    eexists _, _; split; [reflexivity|]; split; [reflexivity|]; split; [reflexivity|]; split; [apply SO'|];
    left; exists r; split; [reflexivity|]; rewrite S, E, TR; split; [reflexivity|]; split; [reflexivity|];
    split; [unfold idle; cbn [sm_state]; discriminate|]; split; [reflexivity|]; auto).
  - (* message 2 *)
    assert (D : smp_dispatch C h rnd c t = smp_message_2 C rnd c t) by (unfold smp_dispatch; now rewrite E).
    rewrite D. destruct (message_2_good rnd c t) as [[o O]|EO]; [|apply FAIL; [exact EO|rewrite E; discriminate]].
    rewrite O. destruct (message_2_inv rnd c t o SO O) as [(x & a2 & a3' & S) (g3b & d1 & d2 & a3 & r & -> & TR & SO')].
    eexists _, _. split; [reflexivity|]. split; [reflexivity|]. split; [reflexivity|]. split; [apply SO'|].
    left. exists r. split; [reflexivity|]. rewrite S, E, TR. split; [reflexivity|]. split; [reflexivity|].
    split; [unfold idle; cbn [sm_state]; discriminate|]. split; [reflexivity|]. auto.
  - (* message 3 *)
    assert (D : smp_dispatch C h rnd c t = smp_message_3 C rnd c t) by (unfold smp_dispatch; now rewrite E).
    rewrite D. destruct (message_3_good rnd c t SO) as [[o O]|EO]; [|apply FAIL; [exact EO|rewrite E; discriminate]].
    rewrite O. assert (S : expects (sm_state c) (tlv_type t) = true).
    { unfold smp_message_3 in O. rewrite E. destruct (sm_state c); try discriminate O. reflexivity. }
    destruct (message_3_inv rnd c t o SO E O) as (r & TR & [[-> V]| ->]);
      eexists _, _; (split; [reflexivity|]); (split; [reflexivity|]); (split; [reflexivity|]); (split; [exact I|]);
      right; left; (split; [reflexivity|]); (split; [exact S|]); (split; [auto|]); left; eauto.
  - (* message 4 *)
    assert (D : smp_dispatch C h rnd c t = smp_message_4 C c t) by (unfold smp_dispatch; now rewrite E).
    rewrite D. destruct (message_4_good c t) as [[o O]|EO]; [|apply FAIL; [exact EO|rewrite E; discriminate]].
    rewrite O. assert (S : expects (sm_state c) (tlv_type t) = true).
    { unfold smp_message_4 in O. rewrite E. destruct (sm_state c); try discriminate O. reflexivity. }
    destruct (message_4_inv c t o E O) as [[-> V]|[-> V]];
      eexists _, _; (split; [reflexivity|]); (split; [reflexivity|]); (split; [reflexivity|]); (split; [exact I|]);
      right; left; (split; [reflexivity|]); (split; [exact S|]); (split; [auto|]); right; eauto.
  - assert (D : smp_dispatch C h rnd c t = Ok (SmpAborted false)) by (unfold smp_dispatch; now rewrite E).
    rewrite D. eexists _, _. split; [reflexivity|]. apply AB; [discriminate|now rewrite E].
Qed.

(** ** Reachable contexts *)

Definition clean (c : smp_context) : Prop :=
  state_ok C c /\ (sm_status c = SmpInProgress <-> ~ idle c).

Lemma initiate_cases h rnd c secret question c' r : smp_initiate C h rnd c secret question = (c', r) -> r <> Panic ->
  (~ idle c /\ c' = c /\ r = Err SMPInProgress) \/
  (idle c /\ ~ idle c' /\ sm_status c' = SmpInProgress /\ state_ok C c' /\ sm_ssid c' = sm_ssid c /\
   sm_their_fp c' = sm_their_fp c /\ exists t, r = Ok t /\ (tlv_type t = 2 \/ tlv_type t = 7)).
Proof.
  unfold smp_initiate, idle, host_fp. intros H NP. destruct (sm_state c) eqn:S.
  2, 3, 4: (left; split; [congruence|]; injection H as <- <-; auto).
  destruct (sh_key h) as [k|]; [|apply (f_equal snd) in H; cbn [snd] in H; congruence].
  right. split; [reflexivity|]. cbv beta zeta in H.
  pose proof (f_equal fst H) as H1. pose proof (f_equal snd H) as H2. cbn [fst snd] in H1, H2. subst c' r. clear H.
  cbn [sm_state sm_status sm_ssid sm_their_fp]. split; [discriminate|]. split; [reflexivity|].
  split; [unfold state_ok; cbn [sm_state sm_their_fp sm_ssid]; eauto|]. split; [reflexivity|]. split; [reflexivity|].
  eexists. split; [reflexivity|]. destruct question; auto.
Qed.

Lemma handle_not_smp h rnd c t : is_smp3_tlv t = false -> smp_handle C h rnd c t = (c, Panic).
Proof.
  intros T. unfold is_smp3_tlv in T. cbn [existsb] in T. rewrite !Bool.orb_false_iff in T.
  destruct T as (T1 & T2 & T3 & T4 & T5 & T6 & _).
  unfold smp_handle, smp_dispatch. now rewrite T1, T2, T3, T4, T5, T6.
Qed.

(* without a host key the only non-panicking outcomes are the same *)
Lemma handle_any h rnd c t c' r : state_ok C c -> smp_handle C h rnd c t = (c', r) -> r <> Panic ->
  exists o, r = Ok o /\ handled c t c' o.
Proof.
  intros SO H NP. destruct (is_smp3_tlv t) eqn:T.
  2: { rewrite handle_not_smp in H by exact T. exfalso. apply NP. congruence. }
  destruct (sh_key h) as [k|] eqn:K.
  - destruct (handle_cases h rnd c t k SO K T) as (c1 & o & H1 & H2). rewrite H in H1.
    exists o. split; [congruence|]. replace c' with c1 by congruence. exact H2.
  - (* the key is only used by message 1 after the checks; give it one *)
    set (h' := mkSmpHost (Some (mkDsaPub 0 0 0 0)) (sh_answer h)).
    assert (E : smp_handle C h rnd c t = smp_handle C h' rnd c t).
    { unfold smp_handle in *. assert (ED : smp_dispatch C h rnd c t <> Panic -> smp_dispatch C h rnd c t = smp_dispatch C h' rnd c t).
      { unfold smp_dispatch. destruct ((tlv_type t =? TLV_SMP_1) || (tlv_type t =? TLV_SMP_1Q)); [|reflexivity].
        unfold smp_message_1. destruct (sm_state c); try reflexivity.
        destruct (smp1_question t) as [question buf]. destruct (read_mpi_sequence buf) as [[mpis rest]| |]; try reflexivity.
        cbn [bind]. destruct mpis as [|g2a [|c2 [|D2 [|g3a [|c3 [|D3 [|? ?]]]]]]]; try reflexivity.
        destruct (done rest); try reflexivity. cbn [bind].
        destruct (dh_verify_exponent C D2); [|reflexivity]. cbn [of_bool bind].
        destruct (dh_verify_exponent C D3); [|reflexivity]. cbn [of_bool bind].
        destruct (dh_verify_public_key C g2a); [|reflexivity]. cbn [of_bool bind].
        destruct (dh_verify_public_key C g3a); [|reflexivity]. cbn [of_bool bind].
        destruct (dh_same _ c2); try reflexivity. cbn [bind].
        destruct (dh_same _ c3); try reflexivity. cbn [bind].
        change (sh_answer h') with (sh_answer h). destruct (sh_answer h question); [|reflexivity].
        unfold host_fp. rewrite K. cbn [bind]. intros N. now contradiction N. }
      rewrite <- ED; [reflexivity|]. intros P. rewrite P in H. apply NP. congruence. }
    rewrite E in H. destruct (handle_cases h' rnd c t _ SO eq_refl T) as (c1 & o & H1 & H2). rewrite H in H1.
    exists o. split; [congruence|]. replace c' with c1 by congruence. exact H2.
Qed.

Lemma handled_clean c t c' o : clean c -> handled c t c' o -> clean c'.
Proof.
  intros [SO ST] (_ & _ & SO' & HC). split; [exact SO'|].
  destruct HC as [(m & _ & X & _ & NI & S & TY)|[(I & _ & S & _)|(I & [why S] & _)]].
  - split; [auto|]. intros _. rewrite S.
    destruct ((tlv_type t =? TLV_SMP_1) || (tlv_type t =? TLV_SMP_1Q)) eqn:T1; [reflexivity|].
    apply ST. intros ID. unfold idle in ID. rewrite ID in X. cbn [expects] in X.
    unfold TLV_SMP_1, TLV_SMP_1Q in T1. congruence.
  - split; [|contradiction]. intros E. destruct S as [[S _]|S]; congruence.
  - split; [|contradiction]. intros E. congruence.
Qed.

Lemma reach_ok ssid fp c : smp_reach C ssid fp c -> clean c /\ sm_ssid c = ssid /\ sm_their_fp c = fp.
Proof.
  intros R. induction R as [|c h rnd secret question c' r R (IH & IS & IF) H NP|c h rnd t c' r R (IH & IS & IF) H NP|c c' t R (IH & IS & IF) H].
  - split; [|auto]. split; [exact I|]. split; [discriminate|]. intros N. exfalso. now apply N.
  - destruct (initiate_cases _ _ _ _ _ _ _ H NP) as [(_ & -> & _)|(_ & NI & S & SO & E1 & E2 & _)]; [auto|].
    split; [|split; congruence]. split; [exact SO|]. split; auto.
  - destruct (handle_any h rnd c t c' r (proj1 IH) H NP) as (o & -> & HC).
    split; [eapply handled_clean; eassumption|]. destruct HC as (E1 & E2 & _). split; congruence.
  - injection H as <- <-. split; [|auto]. split; [exact I|]. split; [discriminate|]. intros N. exfalso. now apply N.
Qed.

End WithCrypto.
