(* Honest runs of the OTRv3 SMP. *)
From Verif Require Import Base BaseLemmas Types Crypto Encoding SpecWire EncodingProofs CryptoProofs EdGroup SMP SpecSMP
  SMPProofs.
From Coq Require Import Lia ZifyN ZifyNat Znumtheory.
Local Open Scope N_scope.

Section WithCrypto.
Context (C : Crypto) (GO : smp_group C).
Local Notation p := (c_dh_p C).
Local Notation q := (dh_q C).
Local Notation g := (c_dh_g C).

Lemma null_terminated question rest : ~ In x00 question ->
  read_bytes_null_terminated (write_bytes_null_terminated question ++ rest) = (question, rest).
Proof.
  unfold write_bytes_null_terminated. induction question as [|b l IH]; intros H.
  - reflexivity.
  - cbn [app read_bytes_null_terminated].
    destruct (byte_eqb b x00) eqn:E.
    + exfalso. apply H. left. now apply byte_eqb_eq in E.
    + rewrite IH by (intros I; apply H; now right). reflexivity.
Qed.

Lemma check_expo v : expo C v -> of_bool (dh_verify_exponent C v) = Ok tt.
Proof.
  intros [A B]. unfold dh_verify_exponent. rewrite (proj2 (N.leb_le _ _) A), (proj2 (N.ltb_lt _ _) B). reflexivity.
Qed.
Lemma check_elem v : elem C v -> of_bool (dh_verify_public_key C v) = Ok tt.
Proof.
  intros [A B]. unfold dh_verify_public_key. rewrite (proj2 (N.leb_le _ _) A), (proj2 (N.leb_le _ _) B). reflexivity.
Qed.
Lemma check_same a b : a = b -> dh_same a b = Ok tt.
Proof. intros ->. unfold dh_same. now rewrite N.eqb_refl. Qed.

Lemma hash1_range v m : mpi_range (hash_1_mpi C v m). Proof. apply hash_range. Qed.
Lemma hash2_range v m1 m2 : mpi_range (hash_2_mpi C v m1 m2). Proof. apply hash_range. Qed.
Lemma pw_lt b e : pw C b e < p. Proof. apply modpow_lt, (p_nz C GO). Qed.
Lemma mm_lt a : mm C a < p. Proof. apply N.mod_lt, (p_nz C GO). Qed.

Ltac ranges :=
  repeat apply Forall_cons; try apply Forall_nil;
  first [ apply hash1_range | apply hash2_range
        | apply (p_range C GO); first [apply pw_lt | apply mm_lt | apply (ge_lt C GO)]
        | apply (q_range C GO); apply (smp_d_lt C GO) ].

Lemma ge_pow_neutral a e : pw C (ge C a) e = ge C (a * Z.of_N e).
Proof. apply (ge_pow C GO). Qed.

Ltac gs := repeat first [rewrite (pw_g C GO) | rewrite (ge_pow C GO) | rewrite (ge_mul3 C GO) | rewrite (ge_mul C GO)].

(* proofs of one logarithm verify *)
Lemma zk1 r a c : mm C (pw C g (smp_d C r a c) * pw C (pw C g a) c) = pw C g r.
Proof. gs. apply (prove_log C GO). Qed.

(* proofs about the pair (P, Q) verify; bases are powers of the generator *)
Lemma zkp_left k3 r5 r4 c :
  mm C (pw C (ge C k3) (smp_d C r5 r4 c) * pw C (pw C (ge C k3) r4) c) = pw C (ge C k3) r5.
Proof. gs. apply (prove_log_base C GO). Qed.
Lemma zkp_right k2 r5 r4 r6 x c :
  mm C (pw C g (smp_d C r5 r4 c) * pw C (ge C k2) (smp_d C r6 x c)
        * pw C (mm C (pw C g r4 * pw C (ge C k2) x)) c)
  = mm C (pw C g r5 * pw C (ge C k2) r6).
Proof.
  gs. apply (ge_cong C GO).
  destruct (smp_d_cong C GO r5 r4 c) as [k K]. destruct (smp_d_cong C GO r6 x c) as [l L].
  exists (k + k2 * l)%Z. nia.
Qed.
Lemma zkr k r a c : mm C (pw C (ge C k) (smp_d C r a c) * pw C (pw C (ge C k) a) c) = pw C (ge C k) r.
Proof. apply zkp_left. Qed.

(** ** One step at a time *)

Definition m1_numbers a2 a3 r2 r3 : list N :=
  let c2 := hash_1_mpi C x01 (pw C g r2) in let c3 := hash_1_mpi C x02 (pw C g r3) in
  [pw C g a2; c2; smp_d C r2 a2 c2; pw C g a3; c3; smp_d C r3 a3 c3].
Definition m1_tlv question l : tlv :=
  match question with
  | [] => mkTlv TLV_SMP_1 (write_mpi_sequence l)
  | _ => mkTlv TLV_SMP_1Q (write_bytes_null_terminated question ++ write_mpi_sequence l)
  end.

Lemma step1 ha rnd a fp secret question :
  host_fp C ha = Ok fp -> sm_state a = Expect1 ->
  let a2 := smp_random C (sr_2 rnd) in let a3 := smp_random C (sr_3 rnd) in
  smp_initiate C ha rnd a secret question
  = (mkSmp SmpInProgress (Expect2 (smp_secret C fp (sm_their_fp a) (sm_ssid a) secret) a2 a3)
       (sm_ssid a) (sm_their_fp a),
     Ok (m1_tlv question (m1_numbers a2 a3 (smp_random C (sr_r2 rnd)) (smp_random C (sr_r3 rnd))))).
Proof. intros F S. unfold smp_initiate. rewrite F, S. reflexivity. Qed.

Lemma m1_question question l : ~ In x00 question ->
  smp1_question (m1_tlv question l) = (question, write_mpi_sequence l).
Proof.
  intros H. destruct question as [|b m]; [reflexivity|].
  unfold smp1_question, m1_tlv. cbn [tlv_type tlv_value]. change (TLV_SMP_1Q =? TLV_SMP_1Q) with true. cbv iota.
  now apply null_terminated.
Qed.

Lemma read_seq l : Forall mpi_range l -> N.of_nat (length l) < 4294967296 ->
  read_mpi_sequence (write_mpi_sequence l) = Ok (l, []).
Proof. intros F L. rewrite <- (app_nil_r (write_mpi_sequence l)). now apply read_mpi_sequence_write. Qed.

Lemma m1_read a2 a3 r2 r3 : read_mpi_sequence (write_mpi_sequence (m1_numbers a2 a3 r2 r3)) = Ok (m1_numbers a2 a3 r2 r3, []).
Proof. apply read_seq; [|reflexivity]. unfold m1_numbers. cbv zeta. ranges. Qed.

Definition m2_numbers g2 g3 y b2 b3 r2 r3 r4 r5 r6 : list N :=
  let c2 := hash_1_mpi C x03 (pw C g r2) in let c3 := hash_1_mpi C x04 (pw C g r3) in
  let cP := hash_2_mpi C x05 (pw C g3 r5) (mm C (pw C g r5 * pw C g2 r6)) in
  [pw C g b2; c2; smp_d C r2 b2 c2; pw C g b3; c3; smp_d C r3 b3 c3;
   pw C g3 r4; mm C (pw C g r4 * pw C g2 y); cP; smp_d C r5 r4 cP; smp_d C r6 y cP].

Lemma m2_read g2 g3 y b2 b3 r2 r3 r4 r5 r6 :
  read_mpi_sequence (write_mpi_sequence (m2_numbers g2 g3 y b2 b3 r2 r3 r4 r5 r6))
  = Ok (m2_numbers g2 g3 y b2 b3 r2 r3 r4 r5 r6, []).
Proof. apply read_seq; [|reflexivity]. unfold m2_numbers. cbv zeta. ranges. Qed.

Lemma step2 hb rnd b fp secret question a2 a3 r2 r3 :
  host_fp C hb = Ok fp -> sm_state b = Expect1 -> ~ In x00 question -> sh_answer hb question = Some secret ->
  legal_1 C (m1_tlv question (m1_numbers a2 a3 r2 r3)) ->
  let y := smp_secret C (sm_their_fp b) fp (sm_ssid b) secret in
  let b2 := smp_random C (sr_2 rnd) in let b3 := smp_random C (sr_3 rnd) in
  let g2 := pw C (pw C g a2) b2 in let g3 := pw C (pw C g a3) b3 in
  let r4 := smp_random C (sr_r4 rnd) in
  smp_handle C hb rnd b (m1_tlv question (m1_numbers a2 a3 r2 r3))
  = (mkSmp SmpInProgress (Expect3 (pw C g a3) g2 g3 b3 (pw C g3 r4) (mm C (pw C g r4 * pw C g2 y)))
       (sm_ssid b) (sm_their_fp b),
     Ok (Some (mkTlv TLV_SMP_2 (write_mpi_sequence
       (m2_numbers g2 g3 y b2 b3 (smp_random C (sr_r2 rnd)) (smp_random C (sr_r3 rnd)) r4
          (smp_random C (sr_r5 rnd)) (smp_random C (sr_r6 rnd))))))).
Proof.
  intros F S NN A L y b2 b3 g2 g3 r4.
  unfold legal_1, smp_numbers in L. rewrite m1_question in L by exact NN. cbn [snd] in L. rewrite m1_read in L.
  unfold m1_numbers in L. cbv beta zeta iota in L. destruct L as (L1 & L2 & L3 & L4).
  assert (D : smp_dispatch C hb rnd b (m1_tlv question (m1_numbers a2 a3 r2 r3))
              = smp_message_1 C hb rnd b (m1_tlv question (m1_numbers a2 a3 r2 r3)))
    by (destruct question; reflexivity).
  assert (T : (tlv_type (m1_tlv question (m1_numbers a2 a3 r2 r3)) =? TLV_SMP_1)
              || (tlv_type (m1_tlv question (m1_numbers a2 a3 r2 r3)) =? TLV_SMP_1Q) = true)
    by (destruct question; reflexivity).
  unfold smp_handle. rewrite D. unfold smp_message_1. rewrite S, m1_question by exact NN.
  rewrite m1_read. cbn [bind]. unfold m1_numbers at 1. cbv beta zeta iota. cbn [done bind].
  rewrite !check_expo by assumption. cbn [bind]. rewrite !check_elem by assumption. cbn [bind].
  rewrite !zk1. rewrite !check_same by reflexivity. cbn [bind]. rewrite A, F. cbn [bind]. cbv beta zeta.
  rewrite T. reflexivity.
Qed.

Definition m3_numbers g2 g3 quot x a3 r4 r5 r6 r7 : list N :=
  let cP := hash_2_mpi C x06 (pw C g3 r5) (mm C (pw C g r5 * pw C g2 r6)) in
  let cR := hash_2_mpi C x07 (pw C g r7) (pw C quot r7) in
  [pw C g3 r4; mm C (pw C g r4 * pw C g2 x); cP; smp_d C r5 r4 cP; smp_d C r6 x cP;
   pw C quot a3; cR; smp_d C r7 a3 cR].
Lemma m3_read g2 g3 quot x a3 r4 r5 r6 r7 :
  read_mpi_sequence (write_mpi_sequence (m3_numbers g2 g3 quot x a3 r4 r5 r6 r7))
  = Ok (m3_numbers g2 g3 quot x a3 r4 r5 r6 r7, []).
Proof. apply read_seq; [|reflexivity]. unfold m3_numbers. cbv zeta. ranges. Qed.

(* [z n]: the number as an integer exponent *)
Local Notation z := Z.of_N.

Lemma step3 ha rnd a x y a2 a3 b2 b3 r2 r3 r4 r5 r6 :
  let g2 := pw C (pw C g a2) b2 in let g3 := pw C (pw C g a3) b3 in
  let m2 := mkTlv TLV_SMP_2 (write_mpi_sequence (m2_numbers g2 g3 y b2 b3 r2 r3 r4 r5 r6)) in
  sm_state a = Expect2 x a2 a3 -> legal_2 C m2 ->
  let r4a := smp_random C (sr_r4 rnd) in
  let quot := ge C (z r4a + z a2 * z b2 * z x - (z r4 + z a2 * z b2 * z y)) in
  smp_handle C ha rnd a m2
  = (mkSmp (sm_status a)
       (Expect4 (pw C g b3) (ge C (z a3 * z b3 * (z r4a - z r4))) quot a3) (sm_ssid a) (sm_their_fp a),
     Ok (Some (mkTlv TLV_SMP_3 (write_mpi_sequence
       (m3_numbers g2 g3 quot x a3 r4a (smp_random C (sr_r5 rnd)) (smp_random C (sr_r6 rnd))
          (smp_random C (sr_r7 rnd))))))).
Proof.
  intros g2 g3 m2 S L r4a quot.
  unfold legal_2, smp_numbers, smp1_question in L. unfold m2 in L. cbn [tlv_type tlv_value] in L.
  change (TLV_SMP_2 =? TLV_SMP_1Q) with false in L. cbv iota in L. cbn [snd] in L. rewrite m2_read in L.
  unfold m2_numbers in L. cbv beta zeta iota in L. destruct L as (L1 & L2 & L3 & L4 & L5 & L6 & L7 & L8).
  unfold smp_handle. change (smp_dispatch C ha rnd a m2) with (smp_message_2 C rnd a m2).
  change ((tlv_type m2 =? TLV_SMP_1) || (tlv_type m2 =? TLV_SMP_1Q)) with false. cbv iota.
  unfold smp_message_2. rewrite S. unfold m2. cbn [tlv_value]. rewrite m2_read. cbn [bind].
  unfold m2_numbers at 1. cbv beta zeta iota.
  rewrite !check_expo by assumption. cbn [bind]. rewrite !check_elem by assumption. cbn [bind].
  rewrite !zk1. rewrite !check_same by reflexivity. cbn [bind]. cbv beta zeta.
  assert (E2 : pw C (pw C g b2) a2 = g2) by (unfold g2; gs; apply (f_equal (ge C)); ring).
  assert (E3 : pw C (pw C g b3) a3 = g3) by (unfold g3; gs; apply (f_equal (ge C)); ring).
  rewrite E2, E3.
  assert (G2 : g2 = ge C (z a2 * z b2)) by (unfold g2; gs; apply (f_equal (ge C)); ring).
  assert (G3 : g3 = ge C (z a3 * z b3)) by (unfold g3; gs; apply (f_equal (ge C)); ring).
  rewrite G2, G3. rewrite zkp_left, zkp_right. rewrite check_same by reflexivity. cbn [bind]. cbv beta zeta.
  assert (QB : mm C (pw C g r4 * pw C (ge C (z a2 * z b2)) y) = ge C (z r4 + z a2 * z b2 * z y)) by (gs; reflexivity).
  assert (PB : pw C (ge C (z a3 * z b3)) r4 = ge C (z a3 * z b3 * z r4)) by (gs; reflexivity).
  rewrite QB, PB. rewrite !(dh_inv_ge C GO). cbn [bind]. cbv beta zeta.
  assert (QA : mm C (mm C (pw C g (smp_random C (sr_r4 rnd)) * pw C (ge C (z a2 * z b2)) x)
                     * ge C (- (z r4 + z a2 * z b2 * z y))) = quot).
  { unfold quot, r4a. gs. apply (f_equal (ge C)). ring. }
  rewrite QA.
  assert (PA : mm C (pw C (ge C (z a3 * z b3)) (smp_random C (sr_r4 rnd)) * ge C (- (z a3 * z b3 * z r4)))
               = ge C (z a3 * z b3 * (z r4a - z r4))).
  { unfold r4a. gs. apply (f_equal (ge C)). ring. }
  rewrite PA. reflexivity.
Qed.

Definition m4_numbers quot b3 r7 : list N :=
  let cR := hash_2_mpi C x08 (pw C g r7) (pw C quot r7) in
  [pw C quot b3; cR; smp_d C r7 b3 cR].
Lemma m4_read quot b3 r7 :
  read_mpi_sequence (write_mpi_sequence (m4_numbers quot b3 r7)) = Ok (m4_numbers quot b3 r7, []).
Proof. apply read_seq; [|reflexivity]. unfold m4_numbers. cbv zeta. ranges. Qed.

Definition verdict_of (quot a3 b3 r4a r4b : Z) : bool :=
  ge C (a3 * b3 * (r4a - r4b)) =? ge C (quot * (a3 * b3)).

Lemma step4 hb rnd b x y a2 a3 b2 b3 r4a r4b r5 r6 r7 :
  let g2 := pw C (pw C g a2) b2 in let g3 := pw C (pw C g a3) b3 in
  let k := (z r4a + z a2 * z b2 * z x - (z r4b + z a2 * z b2 * z y))%Z in
  let quot := ge C k in
  let m3 := mkTlv TLV_SMP_3 (write_mpi_sequence (m3_numbers g2 g3 quot x a3 r4a r5 r6 r7)) in
  sm_state b = Expect3 (pw C g a3) g2 g3 b3 (pw C g3 r4b) (mm C (pw C g r4b * pw C g2 y)) -> legal_3 C m3 ->
  smp_handle C hb rnd b m3
  = (mkSmp (if verdict_of k (z a3) (z b3) (z r4a) (z r4b) then SmpCompleted else SmpAbortedFor SecretsDiffer)
       Expect1 (sm_ssid b) (sm_their_fp b),
     Ok (Some (mkTlv TLV_SMP_4 (write_mpi_sequence (m4_numbers quot b3 (smp_random C (sr_r7 rnd))))))).
Proof.
  intros g2 g3 k quot m3 S L.
  unfold legal_3, smp_numbers, smp1_question in L. unfold m3 in L. cbn [tlv_type tlv_value] in L.
  change (TLV_SMP_3 =? TLV_SMP_1Q) with false in L. cbv iota in L. cbn [snd] in L. rewrite m3_read in L.
  unfold m3_numbers in L. cbv beta zeta iota in L. destruct L as (L1 & L2 & L3 & L4 & L5 & L6).
  unfold smp_handle. change (smp_dispatch C hb rnd b m3) with (smp_message_3 C rnd b m3).
  unfold smp_message_3. rewrite S. unfold m3. cbn [tlv_value]. rewrite m3_read. cbn [bind].
  unfold m3_numbers at 1. cbv beta zeta iota.
  rewrite !check_expo by assumption. cbn [bind]. rewrite !check_elem by assumption. cbn [bind].
  assert (G2 : g2 = ge C (z a2 * z b2)) by (unfold g2; gs; apply (f_equal (ge C)); ring).
  assert (G3 : g3 = ge C (z a3 * z b3)) by (unfold g3; gs; apply (f_equal (ge C)); ring).
  rewrite G2, G3. rewrite zkp_left, zkp_right. rewrite check_same by reflexivity. cbn [bind]. cbv beta zeta.
  assert (QB : mm C (pw C g r4b * pw C (ge C (z a2 * z b2)) y) = ge C (z r4b + z a2 * z b2 * z y)) by (gs; reflexivity).
  assert (PB : pw C (ge C (z a3 * z b3)) r4b = ge C (z a3 * z b3 * z r4b)) by (gs; reflexivity).
  rewrite QB, PB. rewrite !(dh_inv_ge C GO). cbn [bind]. cbv beta zeta.
  assert (QA : mm C (mm C (pw C g r4a * pw C (ge C (z a2 * z b2)) x)
                     * ge C (- (z r4b + z a2 * z b2 * z y))) = quot).
  { unfold quot, k. gs. apply (f_equal (ge C)). ring. }
  assert (ZR : forall r a c, mm C (pw C quot (smp_d C r a c) * pw C (pw C quot a) c) = pw C quot r)
    by (intros; apply zkr).
  rewrite QA, zk1, ZR.
  rewrite check_same by reflexivity. cbn [bind]. cbv beta zeta.
  assert (PA : mm C (pw C (ge C (z a3 * z b3)) r4a * ge C (- (z a3 * z b3 * z r4b)))
               = ge C (z a3 * z b3 * (z r4a - z r4b))).
  { gs. apply (f_equal (ge C)). ring. }
  rewrite PA.
  assert (R : pw C (pw C quot a3) b3 = ge C (k * (z a3 * z b3))) by (unfold quot; gs; apply (f_equal (ge C)); ring).
  rewrite R. unfold verdict_of. destruct (ge C (z a3 * z b3 * (z r4a - z r4b)) =? ge C (k * (z a3 * z b3)));
    reflexivity.
Qed.

Lemma step5 ha rnd a k a3 b3 r4a r4b r7 :
  let m4 := mkTlv TLV_SMP_4 (write_mpi_sequence (m4_numbers (ge C k) b3 r7)) in
  sm_state a = Expect4 (pw C g b3) (ge C (z a3 * z b3 * (r4a - r4b))) (ge C k) a3 -> legal_4 C m4 ->
  smp_handle C ha rnd a m4
  = (mkSmp (if verdict_of k (z a3) (z b3) r4a r4b then SmpCompleted else SmpAbortedFor SecretsDiffer)
       Expect1 (sm_ssid a) (sm_their_fp a), Ok None).
Proof.
  intros m4 S L.
  unfold legal_4, smp_numbers, smp1_question in L. unfold m4 in L. cbn [tlv_type tlv_value] in L.
  change (TLV_SMP_4 =? TLV_SMP_1Q) with false in L. cbv iota in L. cbn [snd] in L. rewrite m4_read in L.
  unfold m4_numbers in L. cbv beta zeta iota in L. destruct L as (L1 & L2).
  unfold smp_handle. change (smp_dispatch C ha rnd a m4) with (smp_message_4 C a m4).
  unfold smp_message_4. rewrite S. unfold m4. cbn [tlv_value]. rewrite m4_read. cbn [bind].
  unfold m4_numbers at 1. cbv beta zeta iota.
  rewrite !check_expo by assumption. cbn [bind]. rewrite !check_elem by assumption. cbn [bind].
  rewrite zk1, zkr. rewrite check_same by reflexivity. cbn [bind]. cbv beta zeta.
  assert (R : pw C (pw C (ge C k) b3) a3 = ge C (k * (z a3 * z b3))) by (gs; apply (f_equal (ge C)); ring).
  rewrite R. unfold verdict_of. destruct (ge C (z a3 * z b3 * (r4a - r4b)) =? ge C (k * (z a3 * z b3)));
    reflexivity.
Qed.

(** ** The whole run *)

Lemma host_fp_ok h k : sh_key h = Some k -> host_fp C h = Ok (otr3_fingerprint C k).
Proof. intros E. unfold host_fp. now rewrite E. Qed.

Lemma run ha hb a b ka kb secret_a secret_b question ra1 ra2 rb1 rb2 ra3 :
  sh_key ha = Some ka -> sh_key hb = Some kb ->
  sm_their_fp a = otr3_fingerprint C kb -> sm_their_fp b = otr3_fingerprint C ka -> sm_ssid a = sm_ssid b ->
  idle a -> idle b -> ~ In x00 question -> sh_answer hb question = Some secret_b ->
  let x := smp_secret C (otr3_fingerprint C ka) (otr3_fingerprint C kb) (sm_ssid b) secret_a in
  let y := smp_secret C (otr3_fingerprint C ka) (otr3_fingerprint C kb) (sm_ssid b) secret_b in
  honest_run C ha hb a b secret_a question ra1 ra2 rb1 rb2 ra3
    (if (z x mod z q =? z y mod z q)%Z then SmpCompleted else SmpAbortedFor SecretsDiffer).
Proof.
  intros KA KB FA FB SS IA IB NN AN x y.
  assert (X : x = smp_secret C (otr3_fingerprint C ka) (sm_their_fp a) (sm_ssid a) secret_a)
    by (unfold x; now rewrite FA, SS).
  assert (Y : y = smp_secret C (sm_their_fp b) (otr3_fingerprint C kb) (sm_ssid b) secret_b)
    by (unfold y; now rewrite FB).
  clearbody x y.
  eexists _, _. split; [apply step1; [exact (host_fp_ok ha ka KA)|exact IA]|]. intros L1.
  set (a2 := smp_random C (sr_2 ra1)) in *. set (a3 := smp_random C (sr_3 ra1)) in *.
  eexists _, _. split; [apply step2 with (secret := secret_b); [exact (host_fp_ok hb kb KB)|assumption|assumption|assumption|assumption]|]. split; [reflexivity|]. intros L2.
  cbv zeta in L2. rewrite <- Y in L2 |- *. rewrite <- X.
  set (b2 := smp_random C (sr_2 rb1)) in *. set (b3 := smp_random C (sr_3 rb1)) in *.
  set (r4b := smp_random C (sr_r4 rb1)) in *.
  eexists _, _. split; [apply step3; [reflexivity|exact L2]|]. split; [reflexivity|]. intros L3.
  set (r4a := smp_random C (sr_r4 ra2)) in *. cbv zeta in L3.
  assert (V : verdict_of (z r4a + z a2 * z b2 * z x - (z r4b + z a2 * z b2 * z y)) (z a3) (z b3) (z r4a) (z r4b)
              = (z x mod z q =? z y mod z q)%Z).
  { (* the exponents of Alice and Bob are not multiples of q: g to their power is an element *)
    unfold legal_1, smp_numbers in L1. rewrite m1_question in L1 by exact NN. cbn [snd] in L1. rewrite m1_read in L1.
    unfold m1_numbers in L1. cbv beta zeta iota in L1. destruct L1 as (A2 & _ & A3 & _).
    unfold legal_2, smp_numbers, smp1_question in L2. cbn [tlv_type tlv_value] in L2.
    change (TLV_SMP_2 =? TLV_SMP_1Q) with false in L2. cbv iota in L2. cbn [snd] in L2. rewrite m2_read in L2.
    unfold m2_numbers in L2. cbv beta zeta iota in L2. destruct L2 as (B2 & _ & B3 & _).
    pose proof GO as (_ & PQ & [G1 _] & _).
    assert (NZ : forall e, elem C (pw C g e) -> ~ (z q | z e)%Z).
    { intros e [E _] D. rewrite (pw_g C GO) in E. rewrite (ge_cong C GO (z e) 0), (ge_0 C GO) in E; [lia|].
      now rewrite Z.sub_0_r. }
    apply NZ in A2, A3, B2, B3. clear L3. clearbody a2 a3 b2 b3 r4a r4b.
    unfold verdict_of. pose proof (q_pos C GO) as QP.
    destruct (Z.eqb_spec (z x mod z q) (z y mod z q)) as [E|N].
    - apply N.eqb_eq. apply (ge_cong C GO).
      assert (D : (z q | z x - z y)%Z).
      { apply Z.mod_divide; [lia|]. rewrite Zminus_mod, E, Z.sub_diag. apply Z.mod_0_l. lia. }
      destruct D as [k D]. exists (- (z a2 * z b2 * z a3 * z b3 * k))%Z.
      replace (z x) with (z y + k * z q)%Z by lia. ring.
    - apply N.eqb_neq. intros E. apply (ge_inj C GO) in E. apply N.
      assert (D : (z q | z a2 * (z b2 * (z a3 * (z b3 * (z x - z y)))))%Z).
      { destruct E as [k E]. exists (- k)%Z. rewrite Z.mul_opp_l, <- E. ring. }
      apply prime_mult in D; [|exact PQ]. destruct D as [D|D]; [contradiction|].
      apply prime_mult in D; [|exact PQ]. destruct D as [D|D]; [contradiction|].
      apply prime_mult in D; [|exact PQ]. destruct D as [D|D]; [contradiction|].
      apply prime_mult in D; [|exact PQ]. destruct D as [D|D]; [contradiction|].
      destruct D as [k D]. replace (z x) with (z y + k * z q)%Z by lia. apply Z_mod_plus_full. }
  rewrite <- V.
  eexists _, _. split; [apply step4 with (x := x); [reflexivity|exact L3]|]. split; [reflexivity|]. intros L4.
  eexists. split; [apply step5; [reflexivity|exact L4]|]. reflexivity.
Qed.

End WithCrypto.
