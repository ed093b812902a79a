(* C35, C36, C51: the Socialist Millionaire Protocol of OTRv3.  Only statements, references to their proofs,
   and examples showing that the hypotheses are met. *)
From Verif Require Import Base BaseLemmas Types Crypto ToyCrypto Encoding SpecWire SMP SpecSMP SMPLemmas.
From Coq Require Import Lia ZifyN ZifyNat.
Local Open Scope N_scope.

(** * C35: both sides learn whether the secrets match *)

(* For every pair of clients of one session, every secret, question without a zero byte and random choice:
   if Bob answers with Alice's secret, both end with success.  The only way out are numbers outside the
   range that OTRv3 admits, see [honest_run]. *)
Theorem C35_equal_secrets_partial : forall C ha hb a b secret question ra1 ra2 rb1 rb2 ra3,
  smp_group C -> smp_peers C ha hb a b -> idle a -> idle b -> ~ In x00 question ->
  sh_answer hb question = Some secret ->
  honest_run C ha hb a b secret question ra1 ra2 rb1 rb2 ra3 SmpCompleted.
Proof.
  intros C ha hb a b secret question ra1 ra2 rb1 rb2 ra3 GO.
  exact (equal_secrets C GO ha hb a b secret question ra1 ra2 rb1 rb2 ra3).
Qed.
Print Assumptions C35_equal_secrets_partial.

(* If Bob answers with a secret that stands for another number, both are told that the secrets differ. *)
Theorem C35_different_secrets : forall C ha hb a b secret_a secret_b x y question ra1 ra2 rb1 rb2 ra3,
  smp_group C -> smp_peers C ha hb a b -> idle a -> idle b -> ~ In x00 question ->
  sh_answer hb question = Some secret_b ->
  secret_number C ha hb (sm_ssid a) secret_a = Some x -> secret_number C ha hb (sm_ssid a) secret_b = Some y ->
  x mod dh_q C <> y mod dh_q C ->
  honest_run C ha hb a b secret_a question ra1 ra2 rb1 rb2 ra3 (SmpAbortedFor SecretsDiffer).
Proof.
  intros C ha hb a b secret_a secret_b x y question ra1 ra2 rb1 rb2 ra3 GO.
  exact (different_secrets C GO ha hb a b secret_a secret_b x y question ra1 ra2 rb1 rb2 ra3).
Qed.
Print Assumptions C35_different_secrets.

(* a run with equal secrets and one with different secrets, in which every message is legal *)
Example C35_ex :
  smp_group toy /\ smp_peers toy ex_ha (ex_hb ex_secret) ex_a ex_b /\ idle ex_a /\ idle ex_b /\ ~ In x00 ex_question /\
  legal_1 toy ex_t1 /\ legal_2 toy (nth_reply (ex_b1 ex_secret)) /\ legal_3 toy (nth_reply (ex_a2 ex_secret)) /\
  legal_4 toy (nth_reply (ex_b2 ex_secret)) /\
  sm_status (fst (ex_b2 ex_secret)) = SmpCompleted /\ sm_status (fst (ex_a3 ex_secret)) = SmpCompleted.
Proof.
  split; [exact toy_smp_group|]. split; [apply ex_peers|]. split; [reflexivity|]. split; [reflexivity|].
  split; [intros [H|[H|[H|[]]]]; discriminate|].
  destruct (ex_legal ex_secret) as (L1 & L2 & L3 & L4); [now left|].
  split; [exact L1|]. split; [exact L2|]. split; [exact L3|]. split; [exact L4|]. split; vm_compute; reflexivity.
Qed.
Example C35_ex_different :
  legal_2 toy (nth_reply (ex_b1 [x63])) /\ legal_3 toy (nth_reply (ex_a2 [x63])) /\
  legal_4 toy (nth_reply (ex_b2 [x63])) /\
  (exists x y, secret_number toy ex_ha (ex_hb [x63]) ex_ssid ex_secret = Some x /\
     secret_number toy ex_ha (ex_hb [x63]) ex_ssid [x63] = Some y /\ x mod dh_q toy <> y mod dh_q toy) /\
  sm_status (fst (ex_b2 [x63])) = SmpAbortedFor SecretsDiffer /\
  sm_status (fst (ex_a3 [x63])) = SmpAbortedFor SecretsDiffer.
Proof.
  destruct (ex_legal [x63]) as (L1 & L2 & L3 & L4); [now right|].
  split; [exact L2|]. split; [exact L3|]. split; [exact L4|].
  split; [eexists _, _; split; [reflexivity|]; split; [reflexivity|]; vm_compute; discriminate|].
  split; vm_compute; reflexivity.
Qed.

(* The full property has no condition on the question.  The question is sent with a zero byte behind it,
   so one that contains a zero byte is cut off and the rest taken for numbers: the run fails. *)
Theorem C35_any_question_refuted :
  ~ (forall C ha hb a b secret question ra1 rb1 a1 t1,
       smp_group C -> smp_peers C ha hb a b -> idle a -> idle b ->
       (forall text, sh_answer hb text = Some secret) ->
       (forall a1' t1', smp_initiate C ha ra1 a secret [] = (a1', Ok t1') -> legal_1 C t1') ->
       smp_initiate C ha ra1 a secret question = (a1, Ok t1) ->
       exists b1 t2, smp_handle C hb rb1 b t1 = (b1, Ok (Some t2)) /\ sm_status b1 = SmpInProgress).
Proof.
  intros H.
  destruct (H toy ex_ha (ex_hb ex_secret) ex_a ex_b ex_secret [x41; x00; x42] (ex_rnd 1) (ex_rnd 2)
              (fst (ex_start [x41; x00; x42]))
              (match snd (ex_start [x41; x00; x42]) with Ok t => t | _ => mkTlv 0 [] end)
              toy_smp_group (ex_peers ex_secret) eq_refl eq_refl) as (b1 & t2 & R & S).
  - reflexivity.
  - intros a1' t1' E. change (ex_start [] = (a1', Ok t1')) in E.
    assert (T : t1' = match snd (ex_start []) with Ok t => t | _ => mkTlv 0 [] end) by now rewrite E.
    rewrite T. vm_compute. repeat (match goal with |- _ /\ _ => split end); try reflexivity; discriminate.
  - vm_compute. reflexivity.
  - apply (f_equal fst) in R. cbn [fst] in R. rewrite <- R in S. vm_compute in S. discriminate S.
Qed.
Print Assumptions C35_any_question_refuted.

(** * C36: success needs a complete verified run, and nothing gets the client stuck *)

(* Whatever a client did and received: if its status is success, its last steps are a complete run, as
   the one who started it or the one who answered, in which every zero knowledge proof was good and the
   last comparison held between the values made from the own secret and the peer's. *)
Theorem C36_success_only_verified : forall C ssid fp evs c,
  smp_group C -> smp_hist C ssid fp evs c -> sm_status c = SmpCompleted ->
  starter_success C ssid fp evs \/ answerer_success C ssid fp evs.
Proof. intros C ssid fp evs c GO. exact (success_only C GO ssid fp evs c). Qed.
Print Assumptions C36_success_only_verified.

(* No message makes the client panic: it is the expected one and the run goes on, or it ends the run with a
   verdict, or the run is aborted and the client is back at the start, and the peer is told (unless the
   message was an abort). *)
Theorem C36_every_message : forall C ssid fp c h rnd t,
  smp_group C -> smp_reach C ssid fp c -> sh_key h <> None -> is_smp3_tlv t = true ->
  exists c' r, smp_handle C h rnd c t = (c', Ok r) /\
  ((expects (sm_state c) (tlv_type t) = true /\ sm_status c' = SmpInProgress /\ ~ idle c' /\
    exists m, r = Some m /\ expects (sm_state c') (tlv_type m + 1) = true) \/
   (expects (sm_state c) (tlv_type t) = true /\ idle c' /\
    (sm_status c' = SmpCompleted \/ sm_status c' = SmpAbortedFor SecretsDiffer)) \/
   (idle c' /\ is_aborted (sm_status c') /\ r = (if tlv_type t =? 6 then None else Some (mkTlv 6 [])))).
Proof. intros C ssid fp c h rnd t GO. exact (every_message C GO ssid fp c h rnd t). Qed.
Print Assumptions C36_every_message.

Theorem C36_unexpected_aborts : forall C ssid fp c h rnd t,
  smp_group C -> smp_reach C ssid fp c -> sh_key h <> None -> is_smp3_tlv t = true ->
  expects (sm_state c) (tlv_type t) = false ->
  exists c' r, smp_handle C h rnd c t = (c', Ok r) /\ idle c' /\ is_aborted (sm_status c') /\
    r = (if tlv_type t =? 6 then None else Some (mkTlv 6 [])).
Proof. intros C ssid fp c h rnd t GO. exact (unexpected_aborts C GO ssid fp c h rnd t). Qed.
Print Assumptions C36_unexpected_aborts.

(* The user always has a next step: the status tells whether a run is going on; a new one can be started if
   not, and is refused without effect otherwise; and a run can be aborted at any time. *)
Theorem C36_never_stuck : forall C ssid fp c h rnd secret question,
  smp_group C -> smp_reach C ssid fp c -> sh_key h <> None ->
  (sm_status c = SmpInProgress <-> ~ idle c) /\
  (sm_status c = SmpInProgress -> smp_initiate C h rnd c secret question = (c, Err SMPInProgress)) /\
  (sm_status c <> SmpInProgress ->
     exists c' t, smp_initiate C h rnd c secret question = (c', Ok t) /\ sm_status c' = SmpInProgress) /\
  (let '(c', t) := smp_abort c in idle c' /\ is_aborted (sm_status c') /\ t = mkTlv 6 []).
Proof. intros C ssid fp c h rnd secret question GO. exact (not_stuck C GO ssid fp c h rnd secret question). Qed.
Print Assumptions C36_never_stuck.

Example C36_ex :
  smp_hist toy ex_ssid (otr3_fingerprint toy ex_kb)
    [Received ex_ha (nth_reply (ex_b2 ex_secret)) None;
     Received ex_ha (nth_reply (ex_b1 ex_secret)) (Some (nth_reply (ex_a2 ex_secret)));
     Started ex_ha ex_secret ex_question ex_t1] (fst (ex_a3 ex_secret)) /\
  sm_status (fst (ex_a3 ex_secret)) = SmpCompleted /\
  smp_hist toy ex_ssid (otr3_fingerprint toy ex_ka)
    [Received (ex_hb ex_secret) (nth_reply (ex_a2 ex_secret)) (Some (nth_reply (ex_b2 ex_secret)));
     Received (ex_hb ex_secret) ex_t1 (Some (nth_reply (ex_b1 ex_secret)))] (fst (ex_b2 ex_secret)) /\
  sm_status (fst (ex_b2 ex_secret)) = SmpCompleted.
Proof.
  split.
  { eapply hist_handle with (rnd := ex_rnd 5) (c := fst (ex_a2 ex_secret)); [|vm_compute; reflexivity].
    eapply hist_handle with (rnd := ex_rnd 3) (c := fst (ex_start ex_question)); [|vm_compute; reflexivity].
    eapply hist_start with (rnd := ex_rnd 1) (c := ex_a); [|vm_compute; reflexivity]. apply hist_new. }
  split; [vm_compute; reflexivity|]. split.
  { eapply hist_handle with (rnd := ex_rnd 4) (c := fst (ex_b1 ex_secret)); [|vm_compute; reflexivity].
    eapply hist_handle with (rnd := ex_rnd 2) (c := ex_b); [|vm_compute; reflexivity]. apply hist_new. }
  vm_compute. reflexivity.
Qed.
(* a message 4 in the state that waits for message 2 aborts the run *)
Example C36_ex_abort :
  smp_reach toy ex_ssid (otr3_fingerprint toy ex_kb) (fst (ex_start ex_question)) /\
  expects (sm_state (fst (ex_start ex_question))) 5 = false /\
  snd (smp_handle toy ex_ha (ex_rnd 3) (fst (ex_start ex_question)) (mkTlv 5 [])) = Ok (Some (mkTlv 6 [])).
Proof.
  split; [eapply reach_initiate with (c := ex_a) (h := ex_ha) (rnd := ex_rnd 1) (secret := ex_secret) (question := ex_question);
    [constructor|apply surjective_pairing|vm_compute; discriminate]|].
  split; vm_compute; reflexivity.
Qed.

(** * C51: an abort ends the exchange and is not answered (OTRv3) *)

Theorem C51_v3_abort_is_final : forall C h rnd c t, tlv_type t = 6 ->
  exists c', smp_handle C h rnd c t = (c', Ok None) /\ idle c' /\ is_aborted (sm_status c').
Proof. exact abort_is_final. Qed.
Print Assumptions C51_v3_abort_is_final.

Example C51_v3_ex : sm_status (fst (smp_handle toy ex_ha (ex_rnd 3) (fst (ex_start ex_question)) (mkTlv 6 [])))
  = SmpAbortedFor AbortReceived.
Proof. vm_compute. reflexivity. Qed.
