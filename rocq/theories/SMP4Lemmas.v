(* The statements of C37 and C51 for OTRv4, from the proofs about runs and histories; and concrete runs. *)
From Coq Require Import Lia ZifyN ZifyNat Znumtheory.
From Verif Require Import Base BaseLemmas Types Crypto ToyCrypto ToyGroup CryptoProofs Encoding SpecWire EncodingProofs SpecCurve EdGroup
  PointProofs RingProofs SMP SMP4 SpecSMP4 SMP4Proofs SMP4HistProofs.
Local Open Scope Z_scope.

Section WithCrypto.
Context (C : Crypto) (GO : smp4_group C).
Local Notation q := (c_ed_q C).

Lemma equal_secrets4 ans_a ans_b a b secret question x ra1 rb1 ra2 rb2 ra3 :
  s4_status a <> S4InProgress -> idle4 b -> smp4_peers a b ->
  (N.of_nat (length question) < 4294967296)%N -> ans_b question = Some secret ->
  smp4_secret C (s4_us a) (s4_them a) (s4_ssid a) secret = Ok x ->
  usual_choices C ra1 rb1 ra2 rb2 x x ->
  honest_run4 C ans_a ans_b a b secret question ra1 rb1 ra2 rb2 ra3 S4Completed S4Completed.
Proof.
  intros NS ID P QL AN X U.
  refine (run_all C GO ra1 rb1 ra2 rb2 x x _ U ans_a ans_b a b secret secret question ra3 true NS ID P QL AN X X _).
  - unfold smp4_secret in X. apply bind_ok in X. destruct X as (dg & _ & X).
    replace x with (Z.of_N (le_val dg)) by congruence. apply N2Z.is_nonneg.
  - split; [|reflexivity]. intros _. rewrite Z.sub_diag. apply Z.divide_0_r.
Qed.

Lemma different_secrets4 ans_a ans_b a b secret_a secret_b question x y ra1 rb1 ra2 rb2 ra3 :
  s4_status a <> S4InProgress -> idle4 b -> smp4_peers a b ->
  (N.of_nat (length question) < 4294967296)%N -> ans_b question = Some secret_b ->
  smp4_secret C (s4_us a) (s4_them a) (s4_ssid a) secret_a = Ok x ->
  smp4_secret C (s4_us a) (s4_them a) (s4_ssid a) secret_b = Ok y -> x mod q <> y mod q ->
  usual_choices C ra1 rb1 ra2 rb2 x y ->
  honest_run4 C ans_a ans_b a b secret_a question ra1 rb1 ra2 rb2 ra3 (S4Aborted Error4) (S4Aborted Differ4).
Proof.
  intros NS ID P QL AN X Y D U.
  refine (run_all C GO ra1 rb1 ra2 rb2 x y _ U ans_a ans_b a b secret_a secret_b question ra3 false NS ID P QL AN X Y _).
  - unfold smp4_secret in Y. apply bind_ok in Y. destruct Y as (dg & _ & Y).
    replace y with (Z.of_N (le_val dg)) by congruence. apply N2Z.is_nonneg.
  - split; [discriminate|]. intros E. exfalso. apply D. destruct E as [k K]. replace x with (y + k * q) by lia.
    apply Z_mod_plus_full.
Qed.

Lemma success_only4 us them ssid evs c : smp4_hist C us them ssid evs c -> s4_status c = S4Completed ->
  starter_success4 C us them ssid evs \/ answerer_success4 C us them ssid evs.
Proof. intros H. apply (hist4_all C (qp C GO) us them ssid evs c H). Qed.

Lemma every_message4 us them ssid evs c ans rnd t c' r : smp4_hist C us them ssid evs c ->
  smp4_handle C ans rnd c t = (c', r) -> r <> Panic ->
  (expects4 (s4_state c) (tlv_type t) = true /\ s4_status c' = S4InProgress /\ ~ idle4 c' /\
    exists m, r = Ok (Some m) /\ expects4 (s4_state c') (tlv_type m + 1) = true) \/
  (expects4 (s4_state c) (tlv_type t) = true /\ idle4 c' /\
    (s4_status c' = S4Completed \/ s4_status c' = S4Aborted Differ4)) \/
  (idle4 c' /\ (exists why, s4_status c' = S4Aborted why) /\ r = Ok (if (tlv_type t =? 6)%N then Some (mkTlv 6 []) else None)).
Proof. intros _ H NP. apply (handle4_cases C ans rnd c t c' r H NP). Qed.

Lemma not_stuck4 us them ssid evs c rnd secret question x : smp4_hist C us them ssid evs c ->
  smp4_secret C us them ssid secret = Ok x ->
  0 <= s4_2 rnd < q -> 0 <= s4_3 rnd < q -> 0 <= s4_r2 rnd < q -> 0 <= s4_r3 rnd < q -> usual_1 C rnd ->
  (s4_status c = S4InProgress <-> ~ idle4 c) /\
  (s4_status c = S4InProgress -> smp4_initiate C rnd c secret question = (c, Err SMPInProgress)) /\
  (s4_status c <> S4InProgress ->
     exists c' t, smp4_initiate C rnd c secret question = (c', Ok t) /\ s4_status c' = S4InProgress) /\
  (let '(c', t) := smp4_abort c in idle4 c' /\ s4_status c' = S4Aborted User4 /\ t = mkTlv 6 []).
Proof.
  intros H X R2 R3 R4 R5 (N2 & N3 & P1 & P2). destruct (hist4_all C (qp C GO) us them ssid evs c H) as ((U & T & S) & SO & _).
  split; [exact SO|]. split; [intros P; unfold smp4_initiate; now rewrite P|]. split; [|repeat split].
  intros P.
  apply (proof_1 C GO) in P1. destruct P1 as (c2 & H2 & _). apply (proof_1 C GO) in P2. destruct P2 as (c3 & H3 & _).
  apply (ne_div C GO) in N2, N3.
  unfold smp4_initiate. rewrite !(gk_of C GO) by (apply R2 || apply R3 || apply R4 || apply R5). rewrite H2, H3. cbn [bind].
  rewrite (proj2 (gk_verify C GO _)) by exact N2. rewrite (proj2 (gk_verify C GO _)) by exact N3. cbn [negb].
  rewrite U, T, S, X. cbn [bind].
  destruct (s4_status c); [|contradiction| |]; eexists _, _; split; reflexivity.
Qed.

(* A message that crashes every idle client: its second field is zero. *)
Definition crash_tlv : tlv := mkTlv 2 (write_data [] ++ wp (c_ed_g C) ++ repeat x00 57).
Lemma crash4 ans rnd c : idle4 c -> smp4_handle C ans rnd c crash_tlv = (c, Panic).
Proof.
  intros I. unfold smp4_handle, smp4_dispatch, smp4_message_1, crash_tlv. cbn [tlv_type tlv_value]. rewrite I.
  change (2 =? TLV_SMP_ABORT)%N with false. change (2 =? TLV_SMP_1)%N with true. cbv iota.
  rewrite read_data_write by reflexivity. cbn [bind].
  assert (E : c_ed_g C = at_g C 1).
  { rewrite <- (gk_of C GO) by lia. symmetry. apply (mul_1 C). }
  rewrite E, (read_gk C GO). cbn [bind].
  rewrite (proj2 (gk_verify C GO 1)); [|intros D; apply Z.divide_1_r_nonneg in D; pose proof (q2 C GO); lia].
  cbn [of_bool bind]. reflexivity.
Qed.

Lemma abort_answered ans rnd c t : tlv_type t = 6%N ->
  smp4_handle C ans rnd c t
  = (mkSmp4 (S4Aborted User4) Expect4_1 (s4_us c) (s4_them c) (s4_ssid c), Ok (Some (mkTlv 6 []))).
Proof. intros E. unfold smp4_handle, smp4_dispatch. rewrite E. reflexivity. Qed.

Lemma ping_pong n : forall a b t, tlv_type t = 6%N -> keeps_replying C n a b t.
Proof.
  induction n as [|n IH]; intros a b t E; [exact I|]. cbn [keeps_replying]. intros ans rnd.
  rewrite abort_answered by exact E. eexists _, _. split; [reflexivity|]. now apply IH.
Qed.
End WithCrypto.

(** ** Concrete runs *)

Lemma toy_smp4_group : smp4_group toy.
Proof.
  split; [exact toy_curve_ok|]. split; [reflexivity|]. split; [vm_compute; discriminate|].
  split; [apply (prime_by_trial _ 53); [reflexivity|reflexivity|vm_compute; reflexivity]|].
  split; [reflexivity|]. split; vm_compute; discriminate.
Qed.

Definition ex4_rnd (n : Z) : smp4_rnd :=
  mkSmp4Rnd ((n * n * 7 + 3) mod 53) ((n * 11 + 20) mod 53) ((n * 13 + 31) mod 53) ((n * 3 + 43) mod 53)
    ((n * 17 + 5) mod 53) ((n * 23 + 6) mod 53) ((n * 29 + 7) mod 53) ((n * 5 + 9) mod 53).
Definition ex4_us : bytes := [x01; x02].
Definition ex4_them : bytes := [x03; x04].
Definition ex4_ssid : bytes := [x05; x06; x07; x08; x09; x0a; x0b; x0c].
Definition ex4_a : smp4_context := smp4_new ex4_us ex4_them ex4_ssid.
Definition ex4_b : smp4_context := smp4_new ex4_them ex4_us ex4_ssid.
Definition ex4_secret : bytes := [x61; x62].
Definition ex4_other : bytes := [x61; x63].
Definition ex4_question : bytes := [x41; x00; x42].
Definition ex4_none : bytes -> option bytes := fun _ => None.
Definition ex4_number (secret : bytes) : Z :=
  match smp4_secret toy ex4_us ex4_them ex4_ssid secret with Ok x => x | _ => 0 end.

Definition reply4 (x : smp4_context * res (option tlv)) : tlv :=
  match snd x with Ok (Some t) => t | _ => mkTlv 0 [] end.
Definition ex4_start := smp4_initiate toy (ex4_rnd 6) ex4_a ex4_secret ex4_question.
Definition ex4_t1 : tlv := match snd ex4_start with Ok t => t | _ => mkTlv 0 [] end.
Definition ex4_answer (s : bytes) : bytes -> option bytes := fun _ => Some s.
Definition ex4_b1 (s : bytes) := smp4_handle toy (ex4_answer s) (ex4_rnd 7) ex4_b ex4_t1.
Definition ex4_a2 (s : bytes) := smp4_handle toy ex4_none (ex4_rnd 8) (fst ex4_start) (reply4 (ex4_b1 s)).
Definition ex4_b2 (s : bytes) := smp4_handle toy ex4_none (ex4_rnd 9) (fst (ex4_b1 s)) (reply4 (ex4_a2 s)).
Definition ex4_a3 (s : bytes) := smp4_handle toy ex4_none (ex4_rnd 10) (fst (ex4_a2 s)) (reply4 (ex4_b2 s)).

Lemma scalars_dec C r :
  forallb (fun s => (0 <=? s) && (s <? c_ed_q C))%Z
    [s4_2 r; s4_3 r; s4_r2 r; s4_r3 r; s4_r4 r; s4_r5 r; s4_r6 r; s4_r7 r] = true -> scalars C r.
Proof.
  intros H. unfold scalars. apply Forall_forall. rewrite forallb_forall in H. intros x I. specialize (H x I). lia.
Qed.
Definition proof_okb C usage pts (rs : list (Z * Z)) : bool :=
  match hash_to_scalar C usage (concat (map pt_encode pts)) with
  | Ok c => negb (c =? 0)%Z && forallb (fun p => negb ((fst p - snd p * c) mod c_ed_q C =? 0)%Z) rs
  | _ => false
  end.
Lemma proof_dec C usage pts rs : proof_okb C usage pts rs = true -> proof_ok C usage pts rs.
Proof.
  unfold proof_okb, proof_ok. destruct (hash_to_scalar _ _ _) as [c| |]; try discriminate. intros H.
  apply andb_true_iff in H. destruct H as [N F]. exists c. split; [reflexivity|]. split; [lia|].
  apply Forall_forall. rewrite forallb_forall in F. intros p I. specialize (F p I). unfold ne. lia.
Qed.

Ltac usual := repeat match goal with |- _ /\ _ => split end;
  first [ apply scalars_dec; vm_compute; reflexivity
        | apply proof_dec; vm_compute; reflexivity
        | unfold ne; vm_compute; discriminate ].
Lemma ex4_usual : usual_choices toy (ex4_rnd 6) (ex4_rnd 7) (ex4_rnd 8) (ex4_rnd 9) (ex4_number ex4_secret) (ex4_number ex4_secret).
Proof. unfold usual_choices, usual_1, usual_2, usual_3, usual_4. usual. Qed.
Lemma ex4_usual_other : usual_choices toy (ex4_rnd 6) (ex4_rnd 7) (ex4_rnd 8) (ex4_rnd 9) (ex4_number ex4_secret) (ex4_number ex4_other).
Proof. unfold usual_choices, usual_1, usual_2, usual_3, usual_4. usual. Qed.
