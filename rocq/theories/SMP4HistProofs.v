(* Proofs about histories of the OTRv4 Socialist Millionaire Protocol. *)
From Coq Require Import Lia ZifyN ZifyNat Znumtheory.
From Verif Require Import Base BaseLemmas Types Crypto CryptoProofs Encoding SpecWire EncodingProofs SpecCurve EdGroup
  PointProofs DataV3Proofs RingProofs SMP SMPHistProofs SMP4 SpecSMP4.
Local Open Scope Z_scope.

Section WithCrypto.
Context (C : Crypto) (Q : 0 < c_ed_q C).
Local Notation G := (c_ed_g C).
Local Notation q := (c_ed_q C).
Local Infix "+p" := (pt_add C) (at level 50, left associativity).
Local Infix "*p" := (pt_mul C) (at level 40, left associativity).

Lemma hash_nonneg usage data c : hash_to_scalar C usage data = Ok c -> 0 <= c.
Proof.
  unfold hash_to_scalar, decode_scalar. destruct (all_zero _); [discriminate|]. intros H.
  replace c with (Z.of_N (le_val (hwc C 57 usage data)) mod q) by congruence. apply Z.mod_pos_bound, Q.
Qed.
Lemma read_nonneg buf s rest : read_ed448_scalar C buf = Ok (s, rest) -> 0 <= s.
Proof.
  unfold read_ed448_scalar, decode_scalar. intros H. apply bind_ok in H. destruct H as ([enc buf'] & _ & H).
  destruct (all_zero enc); [discriminate|]. cbn [bind] in H.
  replace s with (Z.of_N (le_val enc) mod q) by congruence. apply Z.mod_pos_bound, Q.
Qed.
Lemma same_scalar_inv a b : 0 <= a -> 0 <= b -> same_scalar a b = Ok tt -> a = b /\ b <> 0.
Proof.
  intros A B. unfold same_scalar. intros H. apply bind_ok in H. destruct H as (e & E & H).
  destruct e; [|discriminate]. now apply compare_scalars_true in E.
Qed.
Lemma of_bool_inv b u : of_bool b = Ok u -> b = true.
Proof. now destruct b. Qed.
Lemma same_pt_inv a b : same_pt a b = true -> pt_encode a = pt_encode b.
Proof. unfold same_pt. rewrite ct_compare_true. tauto. Qed.

(* take one step of a computation that succeeded: a reader, a check, or a value *)
Tactic Notation "rdr" hyp(H) ident(x) := let E := fresh "R" in apply bind_ok in H; destruct H as ([x ?] & E & H); cbv beta iota zeta in H.
Tactic Notation "chk" hyp(H) := let E := fresh "K" in apply bind_ok in H; destruct H as ([] & E & H); cbv beta iota zeta in H;
  try (apply of_bool_inv in E); try (apply done_ok in E; match type of E with ?v = _ => subst v end).
Tactic Notation "val" hyp(H) ident(x) := let E := fresh "V" in apply bind_ok in H; destruct H as (x & E & H); cbv beta iota zeta in H.

Definition hist4_ok (us them ssid : bytes) (evs : list smp4_event) (st : smp4_state) : Prop :=
  match st with
  | Expect4_1 => True
  | Expect4_2 x a2 a3 => exists secret question t1 before,
      evs = Started4 secret question t1 :: before /\ smp4_secret C us them ssid secret = Ok x
  | Expect4_3 G3a G2 G3 b3 Pb Qb => exists ans t1 t2 before question secret y G2a b2 r4,
      evs = Received4 ans t1 (Some t2) :: before /\ tlv_type t1 = 2%N /\ ans question = Some secret /\
      smp4_secret C them us ssid secret = Ok y /\ checked4_1 C t1 question G2a G3a /\
      G2 = G2a *p b2 /\ G3 = G3a *p b3 /\ Pb = G3 *p r4 /\ Qb = G *p r4 +p G2 *p y /\
      pt_verify C G2 = true /\ pt_verify C G3 = true /\ pt_verify C Pb = true /\ pt_verify C Qb = true
  | Expect4_4 G3b DP DQ a3 => exists secret question t1 ans2 t2 t3 before x a2 G2b Pb Qb r4,
      evs = Received4 ans2 t2 (Some t3) :: Started4 secret question t1 :: before /\ tlv_type t2 = 3%N /\
      smp4_secret C us them ssid secret = Ok x /\
      checked4_2 C t2 (G2b *p a2) (G3b *p a3) G2b G3b Pb Qb /\
      DP = G3b *p a3 *p r4 +p pt_neg C Pb /\
      DQ = G *p r4 +p G2b *p a2 *p (x mod q) +p pt_neg C Qb
  end.

Definition ctx_is (us them ssid : bytes) (c : smp4_context) : Prop :=
  s4_us c = us /\ s4_them c = them /\ s4_ssid c = ssid.

Ltac items := cbn [read_items]; repeat match goal with
  | E : read_ed448_point C _ = Ok _ |- _ => rewrite E; clear E; cbn [bind]
  | E : read_ed448_scalar C _ = Ok _ |- _ => rewrite E; clear E; cbn [bind]
  end; reflexivity.

Ltac nonneg := first [ eapply hash_nonneg; eassumption | eapply read_nonneg; eassumption ].
Ltac same H := apply same_scalar_inv in H; [|nonneg|nonneg].

Lemma hist4_1 us them ssid ans rnd c t st r evs : ctx_is us them ssid c -> tlv_type t = 2%N ->
  smp4_message_1 C ans rnd c t = Ok (st, r) -> hist4_ok us them ssid (Received4 ans t (Some r) :: evs) st.
Proof.
  intros (U & T & S) TT H. unfold smp4_message_1 in H. destruct (s4_state c); try discriminate.
  rdr H question. rdr H G2a. chk H. rdr H c2. rdr H d2. rdr H G3a. chk H. rdr H c3. rdr H d3. chk H.
  val H e2. chk H. val H e3. chk H. same K1. same K2. destruct K1 as [-> N2], K2 as [-> N3].
  destruct (ans question) as [secret|] eqn:A; [|discriminate]. cbv zeta in H.
  val H f2. val H f3. chk H. chk H. val H y. chk H. chk H. val H cp. apply ok_inj in H.
  apply (f_equal fst) in H. cbn [fst] in H. subst st. cbn [hist4_ok].
  exists ans, t, r, evs, question, secret, y, G2a, (s4_2 rnd), (s4_r4 rnd).
  split; [reflexivity|]. split; [exact TT|]. split; [exact A|]. split; [now rewrite <- U, <- T, <- S|].
  split.
  { eexists _, c2, d2, c3, d3. split; [exact R|]. split; [items|]. split; [exact K|]. split; [exact K0|].
    split; split; assumption. }
  repeat (split; [assumption || reflexivity|]). assumption.
Qed.

Lemma hist4_2 us them ssid ans rnd c t st r evs : hist4_ok us them ssid evs (s4_state c) -> tlv_type t = 3%N ->
  smp4_message_2 C rnd c t = Ok (st, r) -> hist4_ok us them ssid (Received4 ans t (Some r) :: evs) st.
Proof.
  intros HO TT H. unfold smp4_message_2 in H. destruct (s4_state c) as [|x a2 a3| |]; try discriminate.
  destruct HO as (secret & question & t1 & before & EV & X). cbv zeta in H.
  rdr H G2b. rdr H c2. rdr H d2. rdr H G3b. rdr H c3. rdr H d3. rdr H Pb. rdr H Qb. rdr H cp. rdr H d5. rdr H d6. chk H.
  chk H. chk H. val H h2. chk H. val H h3. chk H. chk H. chk H. val H hp. chk H.
  same K1. same K2. same K5. destruct K1 as [<- N2], K2 as [<- N3], K5 as [<- N5].
  val H cp'. val H cr. apply ok_inj in H. apply (f_equal fst) in H. cbn [fst] in H. subst st. cbn [hist4_ok].
  exists secret, question, t1, ans, t, r, before, x, a2, G2b, Pb, Qb, (s4_r4 rnd).
  split; [now rewrite EV|]. split; [exact TT|]. split; [exact X|]. split; [|split; reflexivity].
  exists c2, d2, c3, d3, cp, d5, d6. split; [items|]. do 4 (split; [assumption|]).
  split; [split; assumption|]. split; split; assumption.
Qed.

Lemma hist4_3 us them ssid ans rnd c t r evs : hist4_ok us them ssid evs (s4_state c) -> tlv_type t = 4%N ->
  smp4_message_3 C rnd c t = Ok (true, r) -> answerer_success4 C us them ssid (Received4 ans t (Some r) :: evs).
Proof.
  intros HO TT H. unfold smp4_message_3 in H. destruct (s4_state c) as [| |G3a G2 G3 b3 Pb Qb|]; try discriminate.
  destruct HO as (ans1 & t1 & t2 & before & question & secret & y & G2a & b2 & r4 & EV & T1 & A & Y & CH & E2 & E3 & EP & EQ & V2 & V3 & VP & VQ).
  rdr H Pa. rdr H Qa. rdr H cp. rdr H d5. rdr H d6. rdr H Ra. rdr H cr. rdr H d7. chk H. chk H. chk H. chk H.
  val H hp. chk H. val H hr. chk H. val H cr'. apply ok_inj in H. apply (f_equal fst) in H. cbn [fst] in H.
  apply same_pt_inv in H. same K2. same K3. destruct K2 as [<- N2], K3 as [<- N3].
  subst evs. exists ans1, t1, t2, ans, t, r, before, question, secret. split; [reflexivity|].
  split; [exact T1|]. split; [exact TT|]. split; [exact A|].
  exists y, G2a, G3a, b2, b3, r4. split; [exact Y|]. split; [exact CH|]. cbv zeta.
  rewrite <- E2, <- E3, <- EP, <- EQ. do 4 (split; [assumption|]).
  exists Pa, Qa, cp, d5, d6, Ra, cr, d7. split; [items|]. do 3 (split; [assumption|]).
  split; [split; assumption|]. split; [split; assumption|]. exact H.
Qed.

Lemma hist4_4 us them ssid ans c t evs : hist4_ok us them ssid evs (s4_state c) -> tlv_type t = 5%N ->
  smp4_message_4 C c t = Ok tt -> starter_success4 C us them ssid (Received4 ans t None :: evs).
Proof.
  intros HO TT H. unfold smp4_message_4 in H. destruct (s4_state c) as [| | |G3b DP DQ a3]; try discriminate.
  destruct HO as (secret & question & t1 & ans2 & t2 & t3 & before & x & a2 & G2b & Pb & Qb & r4 & EV & T2 & X & CH & EP & EQ).
  rdr H Rb. rdr H cr. rdr H d7. chk H. chk H. val H hr. chk H. apply of_bool_inv, same_pt_inv in H.
  same K0. destruct K0 as [<- N1]. subst evs.
  exists secret, question, t1, ans2, t2, t3, ans, t, before. split; [reflexivity|].
  split; [exact T2|]. split; [exact TT|]. exists x, a2, a3, G2b, G3b, Pb, Qb, r4. split; [exact X|]. cbv zeta.
  split; [exact CH|]. rewrite <- EP, <- EQ. exists Rb, cr, d7. split; [items|]. split; [assumption|].
  split; [split; assumption|]. exact H.
Qed.

(** ** Every call *)

(* the status says whether a run is going on *)
Definition status_ok (c : smp4_context) : Prop := s4_status c = S4InProgress <-> ~ idle4 c.

Lemma state_1 ans rnd c t st r : smp4_message_1 C ans rnd c t = Ok (st, r) ->
  idle4 c /\ expects4 st 4 = true /\ tlv_type r = 3%N.
Proof.
  intros H. unfold idle4. unfold smp4_message_1 in H. destruct (s4_state c); try discriminate. split; [reflexivity|].
  rdr H question. rdr H G2a. chk H. rdr H c2. rdr H d2. rdr H G3a. chk H. rdr H c3. rdr H d3. chk H.
  val H e2. chk H. val H e3. chk H. destruct (ans question) as [secret|] eqn:A; [|discriminate]. cbv zeta in H.
  val H f2. val H f3. chk H. chk H. val H y. chk H. chk H. val H cp. apply ok_inj in H.
  apply pair_equal_spec in H. destruct H as [<- <-]. split; reflexivity.
Qed.
Lemma state_2 rnd c t st r : smp4_message_2 C rnd c t = Ok (st, r) ->
  expects4 (s4_state c) 3 = true /\ expects4 st 5 = true /\ tlv_type r = 4%N.
Proof.
  intros H. unfold smp4_message_2 in H. destruct (s4_state c) as [|x a2 a3| |]; try discriminate. split; [reflexivity|].
  cbv zeta in H.
  rdr H G2b. rdr H c2. rdr H d2. rdr H G3b. rdr H c3. rdr H d3. rdr H Pb. rdr H Qb. rdr H cp. rdr H d5. rdr H d6. chk H.
  chk H. chk H. val H h2. chk H. val H h3. chk H. chk H. chk H. val H hp. chk H.
  val H cp'. val H cr. apply ok_inj in H. apply pair_equal_spec in H. destruct H as [<- <-]. split; reflexivity.
Qed.
Lemma state_3 rnd c t same r : smp4_message_3 C rnd c t = Ok (same, r) ->
  expects4 (s4_state c) 4 = true /\ tlv_type r = 5%N.
Proof.
  intros H. unfold smp4_message_3 in H. destruct (s4_state c) as [| |G3a G2 G3 b3 Pb Qb|]; try discriminate.
  split; [reflexivity|].
  rdr H Pa. rdr H Qa. rdr H cp. rdr H d5. rdr H d6. rdr H Ra. rdr H cr. rdr H d7. chk H. chk H. chk H. chk H.
  val H hp. chk H. val H hr. chk H. val H cr'. apply ok_inj in H. apply pair_equal_spec in H. destruct H as [<- <-]. reflexivity.
Qed.
Lemma state_4 c t : smp4_message_4 C c t = Ok tt -> expects4 (s4_state c) 5 = true.
Proof. unfold smp4_message_4. destruct (s4_state c); [discriminate..|reflexivity]. Qed.

Lemma expects_busy st n : expects4 st n = true -> n <> 2%N -> st <> Expect4_1.
Proof. intros H N ->. cbn in H. apply N.eqb_eq in H. contradiction. Qed.

Definition is_aborted4 (s : smp4_status) : Prop := exists r, s = S4Aborted r.

Lemma handle4_cases ans rnd c t c' r : smp4_handle C ans rnd c t = (c', r) -> r <> Panic ->
  s4_us c' = s4_us c /\ s4_them c' = s4_them c /\ s4_ssid c' = s4_ssid c /\
  ((expects4 (s4_state c) (tlv_type t) = true /\ s4_status c' = S4InProgress /\ ~ idle4 c' /\
    exists m, r = Ok (Some m) /\ expects4 (s4_state c') (tlv_type m + 1) = true) \/
   (expects4 (s4_state c) (tlv_type t) = true /\ idle4 c' /\
    (s4_status c' = S4Completed \/ s4_status c' = S4Aborted Differ4)) \/
   (idle4 c' /\ is_aborted4 (s4_status c') /\ r = Ok (if (tlv_type t =? 6)%N then Some (mkTlv 6 []) else None))).
Proof.
  unfold smp4_handle. destruct (smp4_dispatch C ans rnd c t) as [[c1 r1]|e|] eqn:D; intros H NP;
    apply pair_equal_spec in H; destruct H as [<- <-]; [| |congruence].
  - unfold smp4_dispatch in D. destruct (tlv_type t =? TLV_SMP_ABORT)%N eqn:T6.
    { apply ok_inj in D. cbn [smp4_abort] in D. apply pair_equal_spec in D. destruct D as [<- <-].
      change TLV_SMP_ABORT with 6%N in T6. rewrite T6. cbn. do 3 (split; [reflexivity|]). right. right.
      split; [reflexivity|]. split; [eexists; reflexivity|reflexivity]. }
    destruct (tlv_type t =? TLV_SMP_1)%N eqn:T1.
    { apply N.eqb_eq in T1. rewrite T1. apply bind_ok in D. destruct D as ([st1 m] & D & E). apply ok_inj in E.
      apply pair_equal_spec in E. destruct E as [<- <-]. cbn [s4_us s4_them s4_ssid s4_status s4_state].
      do 3 (split; [reflexivity|]). apply state_1 in D. destruct D as (I & X & M).
      left. rewrite I. split; [reflexivity|]. split; [reflexivity|].
      split; [intros J; unfold idle4 in J; cbn in J; rewrite J in X; discriminate|]. exists m. rewrite M. auto. }
    destruct (tlv_type t =? TLV_SMP_2)%N eqn:T2.
    { apply N.eqb_eq in T2. rewrite T2. apply bind_ok in D. destruct D as ([st1 m] & D & E). apply ok_inj in E.
      apply pair_equal_spec in E. destruct E as [<- <-]. cbn [s4_us s4_them s4_ssid s4_status s4_state].
      do 3 (split; [reflexivity|]). apply state_2 in D. destruct D as (I & X & M).
      left. split; [exact I|]. split; [reflexivity|].
      split; [intros J; unfold idle4 in J; cbn in J; rewrite J in X; discriminate|]. exists m. rewrite M. auto. }
    destruct (tlv_type t =? TLV_SMP_3)%N eqn:T3.
    { apply N.eqb_eq in T3. rewrite T3. apply bind_ok in D. destruct D as ([same m] & D & E). apply ok_inj in E.
      apply pair_equal_spec in E. destruct E as [<- <-]. cbn [s4_us s4_them s4_ssid s4_status s4_state].
      do 3 (split; [reflexivity|]). apply state_3 in D. destruct D as (I & M).
      right. left. split; [exact I|]. split; [reflexivity|]. destruct same; auto. }
    destruct (tlv_type t =? TLV_SMP_4)%N eqn:T4; [|discriminate].
    { apply N.eqb_eq in T4. rewrite T4. apply bind_ok in D. destruct D as ([] & D & E). apply ok_inj in E.
      apply pair_equal_spec in E. destruct E as [<- <-]. cbn [s4_us s4_them s4_ssid s4_status s4_state].
      do 3 (split; [reflexivity|]). apply state_4 in D.
      right. left. split; [exact D|]. split; [reflexivity|]. auto. }
  - cbn [s4_us s4_them s4_ssid s4_status s4_state]. do 3 (split; [reflexivity|]). right. right.
    split; [reflexivity|]. split; [eexists; reflexivity|].
    destruct (N.eqb_spec (tlv_type t) 6) as [E|_]; [|reflexivity].
    unfold smp4_dispatch in D. rewrite E in D. discriminate D.
Qed.

Lemma initiate4_cases rnd c secret question c' r : smp4_initiate C rnd c secret question = (c', r) ->
  (c' = c /\ forall t, r <> Ok t) \/
  (s4_status c <> S4InProgress /\ exists t x,
    r = Ok t /\ smp4_secret C (s4_us c) (s4_them c) (s4_ssid c) secret = Ok x /\
    c' = mkSmp4 S4InProgress (Expect4_2 x (s4_2 rnd) (s4_3 rnd)) (s4_us c) (s4_them c) (s4_ssid c)).
Proof.
  unfold smp4_initiate. intros H. destruct (s4_status c) eqn:S;
    [|apply pair_equal_spec in H; destruct H as [<- <-]; left; split; [reflexivity|discriminate]| |];
  (cbv zeta in H; match type of H with match ?m with _ => _ end = _ => destruct m as [[st t]| |] eqn:M end;
    apply pair_equal_spec in H; destruct H as [<- <-]; [right|left; split; [reflexivity|discriminate]..];
    split; [congruence|]; exists t; val M c2; val M c3; do 2 (destruct (negb _); [discriminate|]); val M x;
    exists x; apply ok_inj, pair_equal_spec in M; destruct M as [<- _]; auto).
Qed.

Lemma hist4_all us them ssid evs c : smp4_hist C us them ssid evs c ->
  ctx_is us them ssid c /\ status_ok c /\ hist4_ok us them ssid evs (s4_state c) /\
  (s4_status c = S4Completed -> starter_success4 C us them ssid evs \/ answerer_success4 C us them ssid evs).
Proof.
  intros HH. induction HH as
    [|evs c rnd secret question c' t HH IH H|evs c rnd secret question c' e HH IH H
     |evs c ans rnd t c' r HH IH H|evs c c' t HH IH H].
  - split; [repeat split|]. split; [split; [discriminate|intros N; now elim N]|]. split; [exact I|]. discriminate.
  - destruct IH as ((U & T & S) & SO & HO & _).
    apply initiate4_cases in H. destruct H as [[_ H]|(NS & t' & x & _ & X & ->)]; [now elim (H t)|].
    split; [repeat split; assumption|]. split; [split; [discriminate|reflexivity]|]. split; [|discriminate].
    cbn [s4_state hist4_ok]. exists secret, question, t, evs. split; [reflexivity|]. now rewrite <- U, <- T, <- S.
  - apply initiate4_cases in H. destruct H as [[-> _]|(_ & t' & x & E & _)]; [exact IH|discriminate E].
  - destruct IH as (CI & SO & HO & _). pose proof CI as (U & T & S).
    pose proof H as H'. apply handle4_cases in H'; [|discriminate].
    destruct H' as (U' & T' & S' & CASES).
    split; [unfold ctx_is; rewrite U', T', S'; auto|].
    split; [destruct CASES as [(_ & P & NI & _)|[(_ & I & [P|P])|(I & [a P] & _)]]; unfold status_ok; rewrite P;
      split; (discriminate || tauto || (intros NI; now elim NI) || auto)|].
    unfold smp4_handle in H. destruct (smp4_dispatch C ans rnd c t) as [[c1 r1]|e|] eqn:D;
      apply pair_equal_spec in H; destruct H as [<- H]; apply ok_inj in H || discriminate H;
      [subst r1|cbn [s4_state s4_status]; split; [exact I|discriminate]].
    unfold smp4_dispatch in D. destruct (tlv_type t =? TLV_SMP_ABORT)%N eqn:T6.
    { apply ok_inj in D. cbn [smp4_abort] in D. apply pair_equal_spec in D. destruct D as [<- <-].
      cbn [s4_state s4_status]. split; [exact I|discriminate]. }
    destruct (tlv_type t =? TLV_SMP_1)%N eqn:T1.
    { apply N.eqb_eq in T1. apply bind_ok in D. destruct D as ([st1 m] & D & E). apply ok_inj in E.
      apply pair_equal_spec in E. destruct E as [<- <-]. cbn [s4_state s4_status]. split; [|discriminate].
      eapply hist4_1; eassumption. }
    destruct (tlv_type t =? TLV_SMP_2)%N eqn:T2.
    { apply N.eqb_eq in T2. apply bind_ok in D. destruct D as ([st1 m] & D & E). apply ok_inj in E.
      apply pair_equal_spec in E. destruct E as [<- <-]. cbn [s4_state s4_status]. split; [|discriminate].
      eapply hist4_2; eassumption. }
    destruct (tlv_type t =? TLV_SMP_3)%N eqn:T3.
    { apply N.eqb_eq in T3. apply bind_ok in D. destruct D as ([same m] & D & E). apply ok_inj in E.
      apply pair_equal_spec in E. destruct E as [<- <-]. cbn [s4_state s4_status]. split; [exact I|].
      destruct same; [|discriminate]. intros _. right. eapply hist4_3; eassumption. }
    destruct (tlv_type t =? TLV_SMP_4)%N eqn:T4; [|discriminate].
    apply N.eqb_eq in T4. apply bind_ok in D. destruct D as ([] & D & E). apply ok_inj in E.
    apply pair_equal_spec in E. destruct E as [<- <-]. cbn [s4_state s4_status]. split; [exact I|].
    intros _. left. eapply hist4_4; eassumption.
  - destruct IH as ((U & T & S) & _). apply pair_equal_spec in H. destruct H as [<- _].
    split; [repeat split; assumption|]. split; [split; [discriminate|intros N; now elim N]|]. split; [exact I|discriminate].
Qed.

End WithCrypto.
