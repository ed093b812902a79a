(* Alice of the toy instance says "hi", and the clients take this for an invitation. *)
From Verif Require Import Base BaseLemmas Types Crypto ToyCrypto CryptoProofs Encoding ClientProfile Messages WireLemmas Fragment KeyManager SpecData3
  Ratchet DataV4 SpecData4 Data4Examples AKE SpecAKE AKELemmas DAKE DAKEExamples SMP SMP4 Protocol Session SpecWire SpecSession
  SessionExamples SpecNet NetProofs Net3Proofs NetLemmas NetExamples Net4Examples SpecGreet.
From Coq Require Import Lia.
Local Open Scope N_scope.

(** ** OTRv3 *)

Definition gr_send := Eval vm_compute in send toy (xs_ea x31 0) ns_a0 0 xs_hi.
Definition gr_a := Eval vm_compute in fst (fst gr_send).
Definition gr_s2 := Eval vm_compute in receive_all toy (xs_ea x22 0) gr_a (snd (fst ns_s1)).
Definition gr_s3 := Eval vm_compute in receive_all toy ns_e2 (fst (fst ns_s1)) (snd (fst gr_s2)).
Definition gr_s4 := Eval vm_compute in receive_all toy ns_e3 (fst (fst gr_s2)) (snd (fst gr_s3)).
Definition gr_s5 := Eval vm_compute in receive_all toy ns_e4 (fst (fst gr_s3)) (snd (fst gr_s4)).
Definition gr_x : exchange toy gr_a ns_b0.
Proof.
  refine (mkExchange toy gr_a ns_b0 ns_e0 (xs_ea x22 0) ns_e2 ns_e3 ns_e4 (fst (fst gr_s2)) (fst (fst gr_s4)) (fst (fst ns_s1))
    (fst (fst gr_s3)) (fst (fst gr_s5)) [query_message V3] (snd (fst ns_s1)) (snd (fst gr_s2)) (snd (fst gr_s3)) (snd (fst gr_s4))
    (snd (fst gr_s5)) (snd ns_s1) (snd gr_s2) (snd gr_s3) (snd gr_s4) (snd gr_s5) _ _ _ _ _ _ _ _ _).
  1-6: vm_compute; reflexivity.
  - cbn. intros I. repeat (destruct I as [I|I]; [discriminate|]). exact I.
  - repeat (apply Forall_cons || apply Forall_nil);
      (split; [vm_compute; discriminate|]); intros L; exfalso; revert L; cbn; lia.
  - repeat (apply Forall_cons || apply Forall_nil); reflexivity.
Defined.
Lemma gr_honest : honest3 toy gr_x.
Proof.
  split; [|split; [reflexivity|]].
  - exists tk_a, tk_b. split; [apply toy_dsa_key_ok; vm_compute; reflexivity|]. split; [apply toy_dsa_key_ok; vm_compute; reflexivity|].
    split; reflexivity.
  - split; [vm_compute; split; discriminate|]. split; [vm_compute; split; discriminate|]. repeat split; intros m S.
    1: change (x_p1 gr_x) with [hd [] (snd (fst ns_s1))] in S.
    2: change (x_p3 gr_x) with [hd [] (snd (fst gr_s3))] in S.
    3: change (x_p4 gr_x) with [hd [] (snd (fst gr_s4))] in S.
    1: apply (fun H => sent_as_single _ _ _ _ _ _ (ns_parsed (hd [] (snd (fst ns_s1)))) H) in S; [|vm_compute; reflexivity].
    2: apply (fun H => sent_as_single _ _ _ _ _ _ (ns_parsed (hd [] (snd (fst gr_s3)))) H) in S; [|vm_compute; reflexivity].
    3: apply (fun H => sent_as_single _ _ _ _ _ _ (ns_parsed (hd [] (snd (fst gr_s4)))) H) in S; [|vm_compute; reflexivity].
    all: subst m; vm_compute; reflexivity.
Qed.
Lemma gr_sent : send toy (xs_ea x31 0) ns_a0 0 xs_hi = (gr_a, [], Ok [whitespace_tag V3 ++ without_nul xs_hi]).
Proof. vm_compute. reflexivity. Qed.
Lemma gr_unmarked : unmarked (without_nul xs_hi).
Proof. exact hi_unmarked. Qed.
Lemma gr_start : start_net3 toy ns_alice ns_bob gr_a ns_b0 gr_x.
Proof.
  split. { exists ([] ++ [mkEvent (OpSend 0 xs_hi) [] (Ok (AnPayloads [whitespace_tag V3 ++ without_nul xs_hi]))]).
    eapply (run_call toy _ [] ns_a0 (fun _ => xs_ea x31 0)); [constructor| |discriminate]. unfold call, answering. rewrite gr_sent. reflexivity. }
  split; [exists []; constructor|].
  split; [split; reflexivity || (vm_compute; discriminate)|]. split; [split; reflexivity || (vm_compute; discriminate)|].
  split; [repeat split|]. split; [repeat split|].
  split; [right; split; [discriminate|split; reflexivity]|]. split; [reflexivity|]. split; [exact toy_params_ok|exact gr_honest].
Qed.

(** ** OTRv4 *)

Definition gf_send := Eval vm_compute in send toy (xs_ea x31 0) xs_a0 0 xs_hi.
Definition gf_a := Eval vm_compute in fst (fst gf_send).
Definition gf_s2 := Eval vm_compute in receive_all toy nf_e1 gf_a (snd (fst nf_s1)).
Definition gf_s4 := Eval vm_compute in receive_all toy nf_e3 (fst (fst gf_s2)) (snd (fst nf_s3)).
Lemma gf_step2 : receive_all toy nf_e1 gf_a (snd (fst nf_s1)) = gf_s2. Proof. vm_compute. reflexivity. Qed.
Lemma gf_same : snd (fst gf_s2) = snd (fst nf_s2). Proof. vm_compute. reflexivity. Qed.
Lemma gf_step3 : receive_all toy nf_e2 (fst (fst nf_s1)) (snd (fst gf_s2)) = nf_s3. Proof. rewrite gf_same. exact nf_step3. Qed.
Lemma gf_step4 : receive_all toy nf_e3 (fst (fst gf_s2)) (snd (fst nf_s3)) = gf_s4. Proof. vm_compute. reflexivity. Qed.
Definition gf_x : exchange toy gf_a xs_b0.
Proof.
  refine (mkExchange toy gf_a xs_b0 nf_e0 nf_e1 nf_e2 nf_e3 nf_e2 (fst (fst gf_s2)) (fst (fst gf_s4)) (fst (fst nf_s1))
    (fst (fst nf_s3)) (fst (fst nf_s3)) [query_message V4] (snd (fst nf_s1)) (snd (fst gf_s2)) (snd (fst nf_s3)) []
    [] (snd nf_s1) (snd gf_s2) (snd nf_s3) (snd gf_s4) [] _ nf_step1 gf_step2 gf_step3 gf_step4 eq_refl _ _ _).
  - vm_compute. reflexivity.
  - cbn. intros I. repeat (destruct I as [I|I]; [discriminate|]). exact I.
  - repeat (apply Forall_cons || apply Forall_nil);
      (split; [vm_compute; discriminate|]); intros L; try (exfalso; revert L; cbn; lia);
      repeat (apply Forall_cons || apply Forall_nil); vm_compute; discriminate.
  - repeat (apply Forall_cons || apply Forall_nil); reflexivity.
Defined.
Lemma gf_sent : send toy (xs_ea x31 0) xs_a0 0 xs_hi = (gf_a, [], Ok [whitespace_tag V4 ++ without_nul xs_hi]).
Proof. vm_compute. reflexivity. Qed.
Lemma gf_start : start_net4 toy xs_alice xs_bob gf_a xs_b0 gf_x.
Proof.
  destruct nf_start as (_ & HB & LA & LB & _ & RB & P & AL & DI & G & E & H).
  split. { exists ([] ++ [mkEvent (OpSend 0 xs_hi) [] (Ok (AnPayloads [whitespace_tag V4 ++ without_nul xs_hi]))]).
    eapply (run_call toy _ [] xs_a0 (fun _ => xs_ea x31 0)); [constructor| |discriminate]. unfold call, answering. rewrite gf_sent. reflexivity. }
  split; [exact HB|]. split; [exact LA|]. split; [exact LB|]. split; [repeat split|]. split; [exact RB|].
  split; [exact P|]. split; [exact AL|]. split; [exact DI|]. split; [exact G|]. split; [exact E|exact H].
Qed.
