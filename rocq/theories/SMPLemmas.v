(* The statements of C35, C36 and C51 for OTRv3, from the proofs about runs, contexts and histories; and the
   concrete runs used as examples. *)
From Verif Require Import Base BaseLemmas Types Crypto ToyCrypto ToyGroup Encoding SpecWire EncodingProofs CryptoProofs
  SMP SpecSMP SMPProofs SMPRunProofs SMPSafeProofs SMPHistProofs.
From Coq Require Import Lia ZifyN ZifyNat Znumtheory.
Local Open Scope N_scope.

Section WithCrypto.
Context (C : Crypto) (GO : smp_group C).

Lemma equal_secrets ha hb a b secret question ra1 ra2 rb1 rb2 ra3 :
  smp_peers C ha hb a b -> idle a -> idle b -> ~ In x00 question -> sh_answer hb question = Some secret ->
  honest_run C ha hb a b secret question ra1 ra2 rb1 rb2 ra3 SmpCompleted.
Proof.
  intros (ka & kb & KA & KB & FA & FB & SS) IA IB NN AN.
  pose proof (run C GO ha hb a b ka kb secret secret question ra1 ra2 rb1 rb2 ra3 KA KB FA FB SS IA IB NN AN) as R.
  cbv zeta in R. rewrite Z.eqb_refl in R. exact R.
Qed.

Lemma different_secrets ha hb a b secret_a secret_b x y question ra1 ra2 rb1 rb2 ra3 :
  smp_peers C ha hb a b -> idle a -> idle b -> ~ In x00 question -> sh_answer hb question = Some secret_b ->
  secret_number C ha hb (sm_ssid a) secret_a = Some x -> secret_number C ha hb (sm_ssid a) secret_b = Some y ->
  x mod dh_q C <> y mod dh_q C ->
  honest_run C ha hb a b secret_a question ra1 ra2 rb1 rb2 ra3 (SmpAbortedFor SecretsDiffer).
Proof.
  intros (ka & kb & KA & KB & FA & FB & SS) IA IB NN AN X Y D.
  pose proof (run C GO ha hb a b ka kb secret_a secret_b question ra1 ra2 rb1 rb2 ra3 KA KB FA FB SS IA IB NN AN) as R.
  cbv zeta in R. unfold secret_number in X, Y. rewrite KA, KB, SS in X, Y.
  apply (f_equal (fun o => match o with Some v => v | None => 0 end)) in X, Y. cbv beta iota in X, Y.
  unfold smp_secret in R. rewrite X, Y in R.
  destruct (Z.eqb_spec (Z.of_N x mod Z.of_N (dh_q C)) (Z.of_N y mod Z.of_N (dh_q C))) as [E|N]; [|exact R].
  exfalso. apply D. rewrite <- !N2Z.inj_mod in E. now apply N2Z.inj.
Qed.

Lemma success_only ssid fp evs c : smp_hist C ssid fp evs c -> sm_status c = SmpCompleted ->
  starter_success C ssid fp evs \/ answerer_success C ssid fp evs.
Proof. intros H. apply (hist_all C GO ssid fp evs c H). Qed.

Lemma every_message ssid fp c h rnd t : smp_reach C ssid fp c -> sh_key h <> None -> is_smp3_tlv t = true ->
  exists c' r, smp_handle C h rnd c t = (c', Ok r) /\
  ((expects (sm_state c) (tlv_type t) = true /\ sm_status c' = SmpInProgress /\ ~ idle c' /\
    exists m, r = Some m /\ expects (sm_state c') (tlv_type m + 1) = true) \/
   (expects (sm_state c) (tlv_type t) = true /\ idle c' /\
    (sm_status c' = SmpCompleted \/ sm_status c' = SmpAbortedFor SecretsDiffer)) \/
   (idle c' /\ is_aborted (sm_status c') /\ r = (if tlv_type t =? 6 then None else Some (mkTlv 6 [])))).
Proof.
  intros R K T. destruct (sh_key h) as [k|] eqn:EK; [|congruence].
  destruct (reach_ok C GO ssid fp c R) as ([SO ST] & _).
  destruct (handle_cases C GO h rnd c t k SO EK T) as (c' & r & H & HD).
  exists c', r. split; [exact H|].
  destruct (handled_clean C c t c' r (conj SO ST) HD) as [_ ST'].
  destruct HD as (_ & _ & _ & [(m & -> & X & X' & NI & _)|[(I & X & S & _)|(I & A & _ & ->)]]).
  - left. split; [exact X|]. split; [now apply ST'|]. split; [exact NI|]. eauto.
  - right. left. split; [exact X|]. split; [exact I|]. destruct S as [[S _]|S]; auto.
  - right. right. split; [exact I|]. split; [exact A|]. reflexivity.
Qed.

Lemma unexpected_aborts ssid fp c h rnd t : smp_reach C ssid fp c -> sh_key h <> None -> is_smp3_tlv t = true ->
  expects (sm_state c) (tlv_type t) = false ->
  exists c' r, smp_handle C h rnd c t = (c', Ok r) /\ idle c' /\ is_aborted (sm_status c') /\
    r = (if tlv_type t =? 6 then None else Some (mkTlv 6 [])).
Proof.
  intros R K T X. destruct (every_message ssid fp c h rnd t R K T) as (c' & r & H & [(X' & _)|[(X' & _)|Y]]);
    [congruence|congruence|]. eauto.
Qed.

Lemma not_stuck ssid fp c h rnd secret question : smp_reach C ssid fp c -> sh_key h <> None ->
  (sm_status c = SmpInProgress <-> ~ idle c) /\
  (sm_status c = SmpInProgress -> smp_initiate C h rnd c secret question = (c, Err SMPInProgress)) /\
  (sm_status c <> SmpInProgress ->
     exists c' t, smp_initiate C h rnd c secret question = (c', Ok t) /\ sm_status c' = SmpInProgress) /\
  (let '(c', t) := smp_abort c in idle c' /\ is_aborted (sm_status c') /\ t = mkTlv 6 []).
Proof.
  intros R K. destruct (reach_ok C GO ssid fp c R) as ([SO ST] & _). split; [exact ST|].
  unfold smp_initiate, idle, host_fp in *. destruct (sh_key h) as [k|]; [|congruence].
  split; [|split].
  - intros P. apply ST in P. destruct (sm_state c); [congruence|reflexivity|reflexivity|reflexivity].
  - intros P. destruct (sm_state c); [|exfalso; apply P, ST; discriminate..].
    eexists _, _. split; reflexivity.
  - cbn. unfold is_aborted. split; [reflexivity|]. split; [eauto|reflexivity].
Qed.

Lemma abort_is_final h rnd c t : tlv_type t = 6 ->
  exists c', smp_handle C h rnd c t = (c', Ok None) /\ idle c' /\ is_aborted (sm_status c').
Proof.
  intros E. unfold smp_handle, smp_dispatch. rewrite E. cbn. eexists. split; [reflexivity|].
  split; [reflexivity|]. eexists. reflexivity.
Qed.

End WithCrypto.

(** ** A concrete run *)

Lemma toy_smp_group : smp_group toy.
Proof.
  split; [apply (prime_by_trial _ 503); [reflexivity|reflexivity|vm_compute; reflexivity]|].
  split; [apply (prime_by_trial _ 251); [reflexivity|reflexivity|vm_compute; reflexivity]|].
  split; [split; reflexivity|]. split; [vm_compute; reflexivity|]. split; vm_compute; reflexivity.
Qed.

Definition ex_ka : dsa_pub := dsa_pk (toy_dsa 3).
Definition ex_kb : dsa_pub := dsa_pk (toy_dsa 5).
Definition ex_question : bytes := [x77; x68; x6f].
Definition ex_secret : bytes := [x61; x62].
Definition ex_ha : smp_host := mkSmpHost (Some ex_ka) (fun _ => None).
Definition ex_hb (answer : bytes) : smp_host := mkSmpHost (Some ex_kb) (fun _ => Some answer).
Definition ex_ssid : bytes := [x01; x02; x03; x04; x05; x06; x07; x08].
Definition ex_a : smp_context := smp_new ex_ssid (otr3_fingerprint toy ex_kb).
Definition ex_b : smp_context := smp_new ex_ssid (otr3_fingerprint toy ex_ka).
Definition ex_rnd (n : N) : smp_rnd := mkSmpRnd (n + 10) (n + 20) (n + 31) (n + 43) (n + 57) (n + 64) (n + 78) (n + 99).

Definition nth_reply (x : smp_context * res (option tlv)) : tlv :=
  match snd x with Ok (Some t) => t | _ => mkTlv 0 [] end.
Definition ex_start (question : bytes) := smp_initiate toy ex_ha (ex_rnd 1) ex_a ex_secret question.
Definition ex_t1 : tlv := match snd (ex_start ex_question) with Ok t => t | _ => mkTlv 0 [] end.
Definition ex_b1 (answer : bytes) := smp_handle toy (ex_hb answer) (ex_rnd 2) ex_b ex_t1.
Definition ex_a2 (answer : bytes) := smp_handle toy ex_ha (ex_rnd 3) (fst (ex_start ex_question)) (nth_reply (ex_b1 answer)).
Definition ex_b2 (answer : bytes) := smp_handle toy (ex_hb answer) (ex_rnd 4) (fst (ex_b1 answer)) (nth_reply (ex_a2 answer)).
Definition ex_a3 (answer : bytes) := smp_handle toy ex_ha (ex_rnd 5) (fst (ex_a2 answer)) (nth_reply (ex_b2 answer)).

Lemma ex_peers answer : smp_peers toy ex_ha (ex_hb answer) ex_a ex_b.
Proof. exists ex_ka, ex_kb. repeat split. Qed.

Ltac legal := vm_compute; repeat (match goal with |- _ /\ _ => split end); try reflexivity; discriminate.

Lemma ex_legal answer : answer = ex_secret \/ answer = [x63] ->
  legal_1 toy ex_t1 /\ legal_2 toy (nth_reply (ex_b1 answer)) /\ legal_3 toy (nth_reply (ex_a2 answer)) /\
  legal_4 toy (nth_reply (ex_b2 answer)).
Proof.
  intros [-> | ->]; (split; [legal|]); (split; [legal|]); (split; legal).
Qed.
