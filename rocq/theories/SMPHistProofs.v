(* Proofs about histories of the OTRv3 Socialist Millionaire Protocol: what must have happened before success. *)
From Verif Require Import Base BaseLemmas Types Crypto Encoding SpecWire EncodingProofs CryptoProofs EdGroup SMP SpecSMP
  SMPProofs SMPRunProofs SMPSafeProofs.
From Coq Require Import Lia ZifyN ZifyNat Znumtheory.
Local Open Scope N_scope.

Section WithCrypto.
Context (C : Crypto) (GO : smp_group C).
Local Notation p := (c_dh_p C).
Local Notation g := (c_dh_g C).

Definition hist_ok (ssid fp : bytes) (evs : list smp_event) (st : smp_state) : Prop :=
  match st with
  | Expect1 => True
  | Expect2 x a2 a3 => exists h secret question t1 before mine,
      evs = Started h secret question t1 :: before /\ own_fp C h mine /\ x = smp_secret C mine fp ssid secret
  | Expect3 g3a g2 g3 b3 Pb Qb => exists h t1 t2 before secret mine g2a b2 r4,
      evs = Received h t1 (Some t2) :: before /\ (tlv_type t1 = 2 \/ tlv_type t1 = 7) /\
      sh_answer h (fst (smp1_question t1)) = Some secret /\ own_fp C h mine /\ checked_1 C t1 g2a g3a /\
      g2 = (g2a ^ b2) mod p /\ g3 = (g3a ^ b3) mod p /\ Pb = (g3 ^ r4) mod p /\
      Qb = (g ^ r4 * g2 ^ smp_secret C fp mine ssid secret) mod p
  | Expect4 g3b d1 d2 a3 => exists h secret question t1 h2 t2 t3 before mine a2 g2b Pb Qb r4,
      evs = Received h2 t2 (Some t3) :: Started h secret question t1 :: before /\ tlv_type t2 = 3 /\
      own_fp C h mine /\
      checked_2 C t2 ((g2b ^ a2) mod p) ((g3b ^ a3) mod p) g2b g3b Pb Qb /\
      (d1 * Pb) mod p = (((g3b ^ a3) mod p) ^ r4) mod p /\
      (d2 * Qb) mod p = (g ^ r4 * ((g2b ^ a2) mod p) ^ smp_secret C mine fp ssid secret) mod p
  end.

Ltac chk H := let E := fresh "K" in
  first [ apply same_inv in H; destruct H as [E H]
        | apply ob_inv in H; destruct H as [E H];
          first [apply expo_true in E | apply elem_true in E | idtac] ].

Lemma host_fp_own h fp : host_fp C h = Ok fp -> own_fp C h fp.
Proof. unfold host_fp, own_fp. destruct (sh_key h) as [k|]; [|discriminate]. intros H. exists k. split; [reflexivity|]. congruence. Qed.
Lemma done_ok rest : done rest = Ok tt -> rest = [].
Proof. unfold done. destruct rest; [reflexivity|discriminate]. Qed.

Lemma ok_inj (A : Type) (a b : A) : Ok a = Ok b -> a = b.
Proof. intros H. congruence. Qed.

Lemma hist_1 h rnd c t o ssid fp evs : smp_message_1 C h rnd c t = Ok o -> (tlv_type t = 2 \/ tlv_type t = 7) ->
  sm_ssid c = ssid -> sm_their_fp c = fp ->
  forall st r, o = SmpReply st r -> hist_ok ssid fp (Received h t (Some r) :: evs) st.
Proof.
  unfold smp_message_1. intros H T SS FP st r ->. destruct (sm_state c); try discriminate.
  destruct (smp1_question t) as [question buf] eqn:Q. apply bind_ok in H. destruct H as ([mpis rest] & RD & H).
  destruct mpis as [|g2a [|c2 [|D2 [|g3a [|c3 [|D3 [|? ?]]]]]]]; try discriminate.
  apply bind_ok in H. destruct H as ([] & DN & H). apply done_ok in DN. subst rest. cbv beta in H.
  do 6 chk H. destruct (sh_answer h question) as [secret|] eqn:A; [|discriminate].
  apply bind_ok in H. destruct H as (mine & F & H). cbv beta zeta in H.
  match type of H with Ok (SmpReply ?s0 _) = _ =>
    assert (ES : st = s0) by (symmetry; refine (f_equal (fun r => match r with Ok (SmpReply a _) => a | _ => st end) H)) end.
  rewrite ES. clear H ES. unfold hist_ok.
  exists h, t, r, evs, secret, mine, g2a, (smp_random C (sr_2 rnd)), (smp_random C (sr_r4 rnd)).
  rewrite Q. cbn [fst]. split; [reflexivity|]. split; [exact T|]. split; [exact A|]. split; [now apply host_fp_own|].
  split.
  { exists c2, D2, c3, D3. rewrite Q. cbn [snd]. split; [exact RD|]. do 4 (split; [assumption|]).
    unfold knows. rewrite <- !(mm_pw2 C GO). split; symmetry; assumption. }
  rewrite (mm_pw2 C GO), <- !(pw_pow C GO). subst. auto.
Qed.

Lemma hist_2 rnd c h t o ssid fp evs : smp_message_2 C rnd c t = Ok o -> tlv_type t = 3 ->
  hist_ok ssid fp evs (sm_state c) ->
  forall st r, o = SmpReply st r -> hist_ok ssid fp (Received h t (Some r) :: evs) st.
Proof.
  unfold smp_message_2. intros H T HO st r ->. destruct (sm_state c) as [|x a2 a3| |]; try discriminate.
  destruct HO as (h0 & secret & question & t1 & before & mine & E & OF & X).
  apply bind_ok in H. destruct H as ([mpis rest] & RD & H).
  destruct mpis as [|g2b [|c2 [|D2 [|g3b [|c3 [|D3 [|Pb [|Qb [|cP [|D5 [|D6 [|? ?]]]]]]]]]]]]; try discriminate.
  do 11 chk H. apply bind_ok in H. destruct H as (qi & Q & H). apply bind_ok in H. destruct H as (pi & P & H).
  cbv beta zeta in H.
  match type of H with Ok (SmpReply ?s0 _) = _ =>
    assert (ES : st = s0) by (symmetry; refine (f_equal (fun r => match r with Ok (SmpReply a _) => a | _ => st end) H)) end.
  rewrite ES. clear H ES. unfold hist_ok.
  exists h0, secret, question, t1, h, t, r, before, mine, a2, g2b, Pb, Qb, (smp_random C (sr_r4 rnd)).
  split; [now rewrite E|]. split; [exact T|]. split; [exact OF|]. split.
  { exists c2, D2, c3, D3, cP, D5, D6, rest. split; [exact RD|]. do 8 (split; [assumption|]).
    unfold knows, knows_pq. rewrite <- !(mm_pw2 C GO), <- !(pw_pow C GO), <- (mm_pw3 C GO).
    split; [symmetry; assumption|]. split; symmetry; assumption. }
  destruct (inv_nz C GO Pb (nz_elem C GO _ K5)) as (pi' & P' & MP & _). rewrite P in P'. injection P' as <-.
  destruct (inv_nz C GO Qb (nz_elem C GO _ K6)) as (qi' & Q' & MQ & _). rewrite Q in Q'. injection Q' as <-.
  rewrite !(div_back C GO) by assumption. rewrite <- X, <- !(pw_pow C GO), (mm_pw2 C GO).
  split; [apply N.mod_small, (pw_lt C GO)|apply N.mod_mod, (p_nz C GO)].
Qed.

Lemma hist_all ssid fp evs c : smp_hist C ssid fp evs c ->
  smp_reach C ssid fp c /\ hist_ok ssid fp evs (sm_state c) /\
  (sm_status c = SmpCompleted -> starter_success C ssid fp evs \/ answerer_success C ssid fp evs).
Proof.
  intros HH. induction HH as
    [|evs c h rnd secret question c' t HH IH H|evs c h rnd secret question c' e HH IH H
     |evs c h rnd t c' r HH IH H|evs c c' t HH IH H].
  - split; [constructor|]. split; [exact I|]. discriminate.
  - destruct IH as (R & HO & _). split; [eapply reach_initiate; [exact R|exact H|discriminate]|].
    unfold smp_initiate in H. destruct (sm_state c); try (apply (f_equal snd) in H; discriminate H).
    destruct (host_fp C h) as [mine| |] eqn:F; try (apply (f_equal snd) in H; discriminate H).
    cbv beta zeta in H. apply (f_equal fst) in H. cbn [fst] in H. subst c'. cbn [sm_state sm_status].
    split; [|discriminate]. exists h, secret, question, t, evs, mine. split; [reflexivity|].
    split; [now apply host_fp_own|]. destruct (reach_ok C GO _ _ _ R) as (_ & -> & ->). reflexivity.
  - assert (E : c' = c).
    { unfold smp_initiate in H. destruct (sm_state c); try (symmetry; exact (f_equal fst H)).
      unfold host_fp in H. destruct (sh_key h); apply (f_equal snd) in H; discriminate H. }
    rewrite E. exact IH.
  - destruct IH as (R & HO & HC). split; [eapply reach_handle; [exact R|exact H|discriminate]|].
    destruct (reach_ok C GO _ _ _ R) as ([SO ST] & SS & FP).
    destruct (handle_any C GO h rnd c t c' (Ok r) SO H) as (o' & E & HD); [discriminate|].
    injection E as <-.
    assert (T : is_smp3_tlv t = true).
    { destruct (is_smp3_tlv t) eqn:T; [reflexivity|]. rewrite (handle_not_smp C) in H by exact T.
      apply (f_equal snd) in H. discriminate H. }
    unfold smp_handle in H. destruct (smp_dispatch C h rnd c t) as [[st m| | |[|]]| [] |] eqn:D;
      try (apply (f_equal snd) in H; discriminate H);
      pose proof (f_equal fst H) as H1; pose proof (f_equal snd H) as H2; cbn [fst snd] in H1, H2;
      apply ok_inj in H2; subst c'; cbn [sm_state sm_status];
      try (split; [exact I|discriminate]).
    + (* reply *)
      subst r. clear H.
      destruct (type_cases t T) as [E|[E|[E|[E|[E|E]]]]]; unfold smp_dispatch in D; rewrite E in D;
        cbn [N.eqb Pos.eqb orb TLV_SMP_1 TLV_SMP_1Q TLV_SMP_2 TLV_SMP_3 TLV_SMP_4 TLV_SMP_ABORT] in D.
      * split; [eapply hist_1; [exact D|auto|exact SS|exact FP|reflexivity]|]. rewrite E. discriminate.
      * split; [eapply hist_1; [exact D|auto|exact SS|exact FP|reflexivity]|]. rewrite E. discriminate.
      * split; [eapply hist_2; [exact D|exact E|exact HO|reflexivity]|]. rewrite E.
        cbn [N.eqb Pos.eqb orb TLV_SMP_1 TLV_SMP_1Q]. intros S. exfalso.
        destruct (message_2_inv C GO rnd c t _ SO D) as [(x & a2 & a3 & X) _].
        assert (sm_status c = SmpInProgress) by (apply ST; unfold idle; rewrite X; discriminate). congruence.
      * exfalso. destruct (message_3_inv C GO rnd c t _ SO E D) as (? & _ & [[X _]|X]); discriminate X.
      * exfalso. destruct (message_4_inv C GO c t _ E D) as [[X _]|[X _]]; discriminate X.
      * discriminate D.
    + (* success *)
      subst r. clear H. split; [exact I|]. intros _.
      destruct (type_cases t T) as [E|[E|[E|[E|[E|E]]]]]; unfold smp_dispatch in D; rewrite E in D;
        cbn [N.eqb Pos.eqb orb TLV_SMP_1 TLV_SMP_1Q TLV_SMP_2 TLV_SMP_3 TLV_SMP_4 TLV_SMP_ABORT] in D.
      * exfalso. destruct (message_1_inv C GO h rnd c t _ D) as (_ & [X|(? & ? & ? & ? & ? & ? & ? & X & _)]); discriminate X.
      * exfalso. destruct (message_1_inv C GO h rnd c t _ D) as (_ & [X|(? & ? & ? & ? & ? & ? & ? & X & _)]); discriminate X.
      * exfalso. destruct (message_2_inv C GO rnd c t _ SO D) as (_ & ? & ? & ? & ? & ? & X & _). discriminate X.
      * right. destruct (message_3_inv C GO rnd c t _ SO E D) as (t4 & _ & [[X V]|X]); [|discriminate X].
        injection X as ->.
        destruct V as (g3a & g2 & g3 & b3 & Pb & Qb & Pa & Qa & cP & D5 & D6 & Ra & cR & D7 & rest & quot & S & V).
        rewrite S in HO.
        destruct HO as (h0 & t1 & t2 & before & secret & mine & g2a & b2 & r4 & EV & T1 & A & OF & CH & G2 & G3 & PB & QB).
        destruct V as (_ & V). subst Qb Pb g3 g2.
        exists h0, t1, t2, h, t, t4, before, secret. split; [now rewrite EV|].
        split; [exact T1|]. split; [exact E|]. split; [exact A|].
        exists mine, g2a, g3a, b2, b3, r4. split; [exact OF|]. split; [exact CH|]. cbv zeta.
        exists Pa, Qa, cP, D5, D6, Ra, cR, D7, rest, quot. exact V.
      * left. destruct (message_4_inv C GO c t _ E D) as [[X V]|[X _]]; [|discriminate X].
        injection X as ->.
        destruct V as (g3b & d1 & d2 & a3 & Rb & cR & D7 & rest & S & _ & RD & ER & ED & SL & FIN).
        rewrite S in HO.
        destruct HO as (h0 & secret & question & t1 & h2 & t2 & t3 & before & mine & a2 & g2b & Pb & Qb & r4
                        & EV & T2 & OF & CH & P1 & Q1).
        exists h0, secret, question, t1, h2, t2, t3, h, t, before. split; [now rewrite EV|].
        split; [exact T2|]. split; [exact E|].
        exists mine, a2, a3, g2b, g3b, Pb, Qb, r4. split; [exact OF|]. cbv zeta. split; [exact CH|].
        exists Rb, cR, D7, rest, d2. split; [exact RD|]. split; [exact ER|]. split; [exact ED|]. split; [exact Q1|].
        split; [exact SL|]. rewrite <- P1, <- FIN. rewrite N.mul_mod_idemp_l by apply (p_nz C GO). reflexivity.
      * discriminate D.
  - destruct IH as (R & _ & _). split; [eapply reach_abort; [exact R|exact H]|].
    injection H as <- _. split; [exact I|]. discriminate.
Qed.

End WithCrypto.
