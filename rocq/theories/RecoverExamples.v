(* Bob's application starts again in the middle of a conversation of the toy instance. *)
From Verif Require Import Base BaseLemmas Types Crypto ToyCrypto CryptoProofs Encoding ClientProfile Messages Fragment KeyManager SpecData3
  AKE SpecAKE AKELemmas DAKE DAKEExamples SMP SMP4 Protocol Session SpecWire SpecSession
  SessionExamples SpecNet NetProofs Net3Proofs NetLemmas NetExamples Net4Examples SpecRecover.
From Coq Require Import Lia.
Local Open Scope N_scope.

(** ** OTRv3 *)

Definition rc_send := Eval vm_compute in send toy (small (xs_ea x31 0)) (li_a ns_l4) 400 xs_hi.
Definition rc_ps := Eval vm_compute in match snd rc_send with Ok l => l | _ => [] end.
Definition rc_lost := Eval vm_compute in receive_all toy (xs_eb x32 0) ns_b0 rc_ps.
Definition rc_told := Eval vm_compute in receive_all toy (xs_ea x33 0) (fst (fst rc_send)) (snd (fst rc_lost)).
Definition rc_a := Eval vm_compute in fst (fst rc_told).
Definition rc_b := Eval vm_compute in fst (fst rc_lost).

Lemma rc_speaks : speaks_to toy 400 xs_hi (li_a ns_l4) ns_b0 rc_a rc_b (snd rc_lost) (snd rc_told) (snd (fst rc_told)).
Proof.
  exists (small (xs_ea x31 0)), (xs_eb x32 0), (xs_ea x33 0), (fst (fst rc_send)), rc_ps, (snd (fst rc_lost)).
  split; [vm_compute; reflexivity|]. split; [reflexivity|].
  split. { split; [vm_compute; discriminate|]. intros _. apply Forall_forall. intros p I.
    assert (X : forallb (fun p => N.of_nat (length p) <=? 256036) rc_ps = true) by (vm_compute; reflexivity).
    rewrite forallb_forall in X. apply N.leb_le. now apply X. }
  split; [vm_compute; reflexivity|].
  split; [vm_compute; intros I; repeat (destruct I as [I|I]; [discriminate I|]); exact I|].
  split; [vm_compute; reflexivity|].
  vm_compute; intros I; repeat (destruct I as [I|I]; [discriminate I|]); exact I.
Qed.
Lemma rc_converses : converses3 toy ns_alice ns_bob (li_a ns_l4).
Proof. left. exists ns_a0, ns_b0, ns_x, ns_hs, ns_l4. split; [exact ns_start|]. split; [exact ns_run|reflexivity]. Qed.
Lemma rc_forgotten : forgotten toy ns_bob 301 ns_b0.
Proof. split; [exists []; constructor|]. split; [vm_compute; repeat split|discriminate]. Qed.

(* the new exchange *)
Definition rc_s1 := Eval vm_compute in receive_all toy ns_e0 rc_b [query_message V3].
Definition rc_s2 := Eval vm_compute in receive_all toy (xs_ea x22 0) rc_a (snd (fst rc_s1)).
Definition rc_s3 := Eval vm_compute in receive_all toy ns_e2 (fst (fst rc_s1)) (snd (fst rc_s2)).
Definition rc_s4 := Eval vm_compute in receive_all toy ns_e3 (fst (fst rc_s2)) (snd (fst rc_s3)).
Definition rc_s5 := Eval vm_compute in receive_all toy ns_e4 (fst (fst rc_s3)) (snd (fst rc_s4)).
Definition rc_x : exchange toy rc_a rc_b.
Proof.
  refine (mkExchange toy rc_a rc_b ns_e0 (xs_ea x22 0) ns_e2 ns_e3 ns_e4 (fst (fst rc_s2)) (fst (fst rc_s4)) (fst (fst rc_s1))
    (fst (fst rc_s3)) (fst (fst rc_s5)) [query_message V3] (snd (fst rc_s1)) (snd (fst rc_s2)) (snd (fst rc_s3)) (snd (fst rc_s4))
    (snd (fst rc_s5)) (snd rc_s1) (snd rc_s2) (snd rc_s3) (snd rc_s4) (snd rc_s5) _ _ _ _ _ _ _ _ _).
  1-6: vm_compute; reflexivity.
  - cbn. intros I. repeat (destruct I as [I|I]; [discriminate|]). exact I.
  - repeat (apply Forall_cons || apply Forall_nil);
      (split; [vm_compute; discriminate|]); intros L; exfalso; revert L; cbn; lia.
  - repeat (apply Forall_cons || apply Forall_nil); reflexivity.
Defined.
Lemma rc_honest : honest3 toy rc_x.
Proof.
  split; [|split; [reflexivity|]].
  - exists tk_a, tk_b. split; [apply toy_dsa_key_ok; vm_compute; reflexivity|]. split; [apply toy_dsa_key_ok; vm_compute; reflexivity|].
    split; reflexivity.
  - split; [vm_compute; split; discriminate|]. split; [vm_compute; split; discriminate|]. repeat split; intros m S.
    1: change (x_p1 rc_x) with [hd [] (snd (fst rc_s1))] in S.
    2: change (x_p3 rc_x) with [hd [] (snd (fst rc_s3))] in S.
    3: change (x_p4 rc_x) with [hd [] (snd (fst rc_s4))] in S.
    1: apply (fun H => sent_as_single _ _ _ _ _ _ (ns_parsed (hd [] (snd (fst rc_s1)))) H) in S; [|vm_compute; reflexivity].
    2: apply (fun H => sent_as_single _ _ _ _ _ _ (ns_parsed (hd [] (snd (fst rc_s3)))) H) in S; [|vm_compute; reflexivity].
    3: apply (fun H => sent_as_single _ _ _ _ _ _ (ns_parsed (hd [] (snd (fst rc_s4)))) H) in S; [|vm_compute; reflexivity].
    all: subst m; vm_compute; reflexivity.
Qed.

(** ** OTRv4 *)

Definition rd_send := Eval vm_compute in send toy (xs_ea x31 0) (li_a nf_l2) 400 xs_hi.
Definition rd_ps := Eval vm_compute in match snd rd_send with Ok l => l | _ => [] end.
Definition rd_lost := Eval vm_compute in receive_all toy (xs_eb x32 0) xs_b0 rd_ps.
Definition rd_told := Eval vm_compute in receive_all toy (xs_ea x33 0) (fst (fst rd_send)) (snd (fst rd_lost)).
Definition rd_a := Eval vm_compute in fst (fst rd_told).
Definition rd_b := Eval vm_compute in fst (fst rd_lost).
Lemma rd_speaks : speaks_to toy 400 xs_hi (li_a nf_l2) xs_b0 rd_a rd_b (snd rd_lost) (snd rd_told) (snd (fst rd_told)).
Proof.
  exists (xs_ea x31 0), (xs_eb x32 0), (xs_ea x33 0), (fst (fst rd_send)), rd_ps, (snd (fst rd_lost)).
  split; [vm_compute; reflexivity|]. split; [reflexivity|].
  split. { split; [vm_compute; discriminate|]. intros L. exfalso. revert L. vm_compute. intros L. inversion L as [|? K]. inversion K. }
  split; [vm_compute; reflexivity|].
  split; [vm_compute; intros I; repeat (destruct I as [I|I]; [discriminate I|]); exact I|].
  split; [vm_compute; reflexivity|].
  vm_compute; intros I; repeat (destruct I as [I|I]; [discriminate I|]); exact I.
Qed.
Lemma rd_converses : converses4 toy xs_alice xs_bob (li_a nf_l2).
Proof. left. exists xs_a0, xs_b0, nf_x, nf_hs, nf_l2. split; [exact nf_start|]. split; [exact nf_run|reflexivity]. Qed.
Lemma rd_forgotten : forgotten toy xs_bob 301 xs_b0.
Proof. split; [exists []; constructor|]. split; [vm_compute; repeat split|discriminate]. Qed.

(* the new exchange: the clients choose the same random values as in the old one *)
Definition rd_s1 := Eval vm_compute in receive_all toy nf_e0 rd_b [query_message V4].
Definition rd_s2 := Eval vm_compute in receive_all toy nf_e1 rd_a (snd (fst rd_s1)).
Definition rd_s3 := Eval vm_compute in receive_all toy nf_e2 (fst (fst rd_s1)) (snd (fst rd_s2)).
Definition rd_s4 := Eval vm_compute in receive_all toy nf_e3 (fst (fst rd_s2)) (snd (fst rd_s3)).
Lemma rd_step1 : receive_all toy nf_e0 rd_b [query_message V4] = rd_s1. Proof. vm_compute. reflexivity. Qed.
Lemma rd_step2 : receive_all toy nf_e1 rd_a (snd (fst rd_s1)) = rd_s2. Proof. vm_compute. reflexivity. Qed.
Lemma rd_step3 : receive_all toy nf_e2 (fst (fst rd_s1)) (snd (fst rd_s2)) = rd_s3. Proof. vm_compute. reflexivity. Qed.
Lemma rd_step4 : receive_all toy nf_e3 (fst (fst rd_s2)) (snd (fst rd_s3)) = rd_s4. Proof. vm_compute. reflexivity. Qed.
Definition rd_x : exchange toy rd_a rd_b.
Proof.
  refine (mkExchange toy rd_a rd_b nf_e0 nf_e1 nf_e2 nf_e3 nf_e2 (fst (fst rd_s2)) (fst (fst rd_s4)) (fst (fst rd_s1))
    (fst (fst rd_s3)) (fst (fst rd_s3)) [query_message V4] (snd (fst rd_s1)) (snd (fst rd_s2)) (snd (fst rd_s3)) []
    [] (snd rd_s1) (snd rd_s2) (snd rd_s3) (snd rd_s4) [] _ rd_step1 rd_step2 rd_step3 rd_step4 eq_refl _ _ _).
  - vm_compute. reflexivity.
  - cbn. intros I. repeat (destruct I as [I|I]; [discriminate|]). exact I.
  - repeat (apply Forall_cons || apply Forall_nil);
      (split; [vm_compute; discriminate|]); intros L; try (exfalso; revert L; cbn; lia);
      repeat (apply Forall_cons || apply Forall_nil); vm_compute; discriminate.
  - repeat (apply Forall_cons || apply Forall_nil); reflexivity.
Defined.
Lemma rd_honest : honest4 toy xs_alice xs_bob (x_e0 rd_x) (x_e1 rd_x) (x_e2 rd_x).
Proof. destruct nf_start as (_ & _ & _ & _ & _ & _ & _ & _ & _ & _ & _ & H). exact H. Qed.

(** ** OTRv3: Alice does not start a key exchange on an error message *)

Definition rq_alice : details := mkDetails (mkPolicy true false false true true false) 301 [x61] [x62].
Definition rq_a0 := session_new rq_alice.
Definition rq_e1 := xs_ea x22 0.
Definition rq_s2 := Eval vm_compute in receive_all toy rq_e1 rq_a0 (snd (fst ns_s1)).
Definition rq_s3 := Eval vm_compute in receive_all toy ns_e2 (fst (fst ns_s1)) (snd (fst rq_s2)).
Definition rq_s4 := Eval vm_compute in receive_all toy ns_e3 (fst (fst rq_s2)) (snd (fst rq_s3)).
Definition rq_s5 := Eval vm_compute in receive_all toy ns_e4 (fst (fst rq_s3)) (snd (fst rq_s4)).
Definition rq_x : exchange toy rq_a0 ns_b0.
Proof.
  refine (mkExchange toy rq_a0 ns_b0 ns_e0 rq_e1 ns_e2 ns_e3 ns_e4 (fst (fst rq_s2)) (fst (fst rq_s4)) (fst (fst ns_s1))
    (fst (fst rq_s3)) (fst (fst rq_s5)) [query_message V3] (snd (fst ns_s1)) (snd (fst rq_s2)) (snd (fst rq_s3)) (snd (fst rq_s4))
    (snd (fst rq_s5)) (snd ns_s1) (snd rq_s2) (snd rq_s3) (snd rq_s4) (snd rq_s5) _ _ _ _ _ _ _ _ _).
  1-6: vm_compute; reflexivity.
  - cbn. intros I. repeat (destruct I as [I|I]; [discriminate|]). exact I.
  - repeat (apply Forall_cons || apply Forall_nil);
      (split; [vm_compute; discriminate|]); intros L; exfalso; revert L; cbn; lia.
  - repeat (apply Forall_cons || apply Forall_nil); reflexivity.
Defined.
Lemma rq_honest : honest3 toy rq_x.
Proof.
  split; [|split; [reflexivity|]].
  - exists tk_a, tk_b. split; [apply toy_dsa_key_ok; vm_compute; reflexivity|]. split; [apply toy_dsa_key_ok; vm_compute; reflexivity|].
    split; reflexivity.
  - split; [vm_compute; split; discriminate|]. split; [vm_compute; split; discriminate|]. repeat split; intros m S.
    1: change (x_p1 rq_x) with [hd [] (snd (fst ns_s1))] in S.
    2: change (x_p3 rq_x) with [hd [] (snd (fst rq_s3))] in S.
    3: change (x_p4 rq_x) with [hd [] (snd (fst rq_s4))] in S.
    1: apply (fun H => sent_as_single _ _ _ _ _ _ (ns_parsed (hd [] (snd (fst ns_s1)))) H) in S; [|vm_compute; reflexivity].
    2: apply (fun H => sent_as_single _ _ _ _ _ _ (ns_parsed (hd [] (snd (fst rq_s3)))) H) in S; [|vm_compute; reflexivity].
    3: apply (fun H => sent_as_single _ _ _ _ _ _ (ns_parsed (hd [] (snd (fst rq_s4)))) H) in S; [|vm_compute; reflexivity].
    all: subst m; vm_compute; reflexivity.
Qed.
Lemma rq_converses : converses3 toy rq_alice ns_bob (x_sa2 rq_x).
Proof.
  left. exists rq_a0, ns_b0, rq_x, [], (mkLink (x_sa2 rq_x) (x_sb3 rq_x) [] []). split; [|split; [constructor|reflexivity]].
  split; [exists []; constructor|]. split; [exists []; constructor|].
  split; [split; reflexivity || (vm_compute; discriminate)|]. split; [split; reflexivity || (vm_compute; discriminate)|].
  split; [repeat split|]. split; [repeat split|].
  split; [right; split; [discriminate|split; reflexivity]|]. split; [reflexivity|]. split; [exact toy_params_ok|exact rq_honest].
Qed.
Definition rq_send := Eval vm_compute in send toy (xs_ea x31 0) (x_sa2 rq_x) 400 xs_hi.
Definition rq_ps := Eval vm_compute in match snd rq_send with Ok l => l | _ => [] end.
Definition rq_lost := Eval vm_compute in receive_all toy (xs_eb x32 0) ns_b0 rq_ps.
Definition rq_told := Eval vm_compute in receive_all toy (xs_ea x33 0) (fst (fst rq_send)) (snd (fst rq_lost)).
Lemma rq_speaks : speaks_to toy 400 xs_hi (x_sa2 rq_x) ns_b0 (fst (fst rq_told)) (fst (fst rq_lost)) (snd rq_lost) (snd rq_told) (snd (fst rq_told)).
Proof.
  exists (xs_ea x31 0), (xs_eb x32 0), (xs_ea x33 0), (fst (fst rq_send)), rq_ps, (snd (fst rq_lost)).
  split; [vm_compute; reflexivity|]. split; [reflexivity|].
  split. { split; [vm_compute; discriminate|]. intros L. exfalso. revert L. vm_compute. intros L. inversion L as [|? K]. inversion K. }
  split; [vm_compute; reflexivity|].
  split; [vm_compute; intros I; repeat (destruct I as [I|I]; [discriminate I|]); exact I|].
  split; [vm_compute; reflexivity|].
  vm_compute; intros I; repeat (destruct I as [I|I]; [discriminate I|]); exact I.
Qed.
