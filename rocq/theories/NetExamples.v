(* Two sessions of the toy instance: the key exchange and a conversation. *)
From Verif Require Import Base BaseLemmas Types Crypto ToyCrypto CryptoProofs Encoding ClientProfile Messages MessagesProofs Fragment SpecFragment FragmentProofs FragmentLemmas KeyManager SpecData3
  DataV3 Ratchet DataV4 SpecCurve ToyGroup AKE SpecAKE AKELemmas DAKE DAKEExamples SMP SMP4 Protocol Session SpecWire WireLemmas SpecSession
  SessionExamples SpecNet NetProofs Net3Proofs NetLemmas.
From Coq Require Import Lia.
Local Open Scope N_scope.

Definition ns_policy3 : policy := mkPolicy true false false true true true.
Definition ns_alice : details := mkDetails ns_policy3 301 [x61] [x62].
Definition ns_bob : details := mkDetails ns_policy3 400 [x62] [x61].
Definition ns_a0 := session_new ns_alice.
Definition ns_b0 := session_new ns_bob.
(* Alice's transport carries 40 bytes at a time *)
Definition small (e : env) : env :=
  mkEnv (N.to_nat 40) (ev_dsa e) (ev_profile e) (ev_identity e) (ev_answer e) (ev_dh e) (ev_r e) (ev_nonce e) (ev_km0 e) (ev_km1 e)
    (ev_ack e) (ev_dake e) (ev_ring e) (ev_send e) (ev_smp e) (ev_smp4 e) (ev_fragment e).
Definition ns_e0 := xs_eb x21 0.
Definition ns_e1 := small (xs_ea x22 0).
Definition ns_e2 := xs_eb x23 0.
Definition ns_e3 := xs_ea x24 0.
Definition ns_e4 := xs_eb x25 0.

Definition ns_s1 := Eval vm_compute in receive_all toy ns_e0 ns_b0 [query_message V3].
Definition ns_s2 := Eval vm_compute in receive_all toy ns_e1 ns_a0 (snd (fst ns_s1)).
Definition ns_s3 := Eval vm_compute in receive_all toy ns_e2 (fst (fst ns_s1)) (snd (fst ns_s2)).
Definition ns_s4 := Eval vm_compute in receive_all toy ns_e3 (fst (fst ns_s2)) (snd (fst ns_s3)).
Definition ns_s5 := Eval vm_compute in receive_all toy ns_e4 (fst (fst ns_s3)) (snd (fst ns_s4)).
Definition ns_conv1 := Eval vm_compute in send toy (small (xs_ea x26 0)) (fst (fst ns_s4)) 400 xs_hi.
Definition ns_ps1 := Eval vm_compute in match snd ns_conv1 with Ok l => l | _ => [] end.
Definition ns_conv2 := Eval vm_compute in receive_all toy (xs_eb x27 0) (fst (fst ns_s5)) ns_ps1.
Definition ns_conv3 := Eval vm_compute in send toy (xs_eb x28 0) (fst (fst ns_conv2)) 301 [x79; x00; x6f].
Definition ns_ps2 := Eval vm_compute in match snd ns_conv3 with Ok l => l | _ => [] end.
Definition ns_conv4 := Eval vm_compute in receive_all toy (xs_ea x29 0) (fst (fst ns_conv1)) ns_ps2.

Definition ns_x : exchange toy ns_a0 ns_b0.
Proof.
  refine (mkExchange toy ns_a0 ns_b0 ns_e0 ns_e1 ns_e2 ns_e3 ns_e4 (fst (fst ns_s2)) (fst (fst ns_s4)) (fst (fst ns_s1))
    (fst (fst ns_s3)) (fst (fst ns_s5)) [query_message V3] (snd (fst ns_s1)) (snd (fst ns_s2)) (snd (fst ns_s3)) (snd (fst ns_s4))
    (snd (fst ns_s5)) (snd ns_s1) (snd ns_s2) (snd ns_s3) (snd ns_s4) (snd ns_s5) _ _ _ _ _ _ _ _ _).
  1-6: vm_compute; reflexivity.
  - cbn. intros I. repeat (destruct I as [I|I]; [discriminate|]). exact I.
  - repeat (apply Forall_cons || apply Forall_nil);
      (split; [vm_compute; discriminate|]); intros L; exfalso; revert L; cbn; lia.
  - repeat (apply Forall_cons || apply Forall_nil); reflexivity.
Defined.

(* a message in one piece is what the payload says *)
Lemma sent_as_single d e rc v p m x : sent_as toy d e rc v [p] m -> parse toy p = Ok (MsgEncoded x) -> m = em_message x.
Proof.
  intros ((b & E & [(_ & P)|(_ & fs & F & A)]) & W) PX.
  - injection P as <-. destruct (encoded_round_trip toy _ W) as (b' & E1 & E2). unfold encode_message in E.
    assert (b' = p) as -> by congruence. rewrite E2 in PX. injection PX as <-. reflexivity.
  - exfalso. apply fragment_ok in F as (_ & _ & _ & F & _). apply forall2_length in A. cbn [length] in A. lia.
Qed.
Definition ns_parsed (p : bytes) : encoded_message :=
  match parse toy p with Ok (MsgEncoded x) => x | _ => mkEncoded VNone 0 0 (MUnencoded []) end.

Lemma ns_plain : plain_run3 toy ns_x.
Proof.
  split; [vm_compute; split; discriminate|]. split; [vm_compute; split; discriminate|]. repeat split; intros m S.
  1: change (x_p1 ns_x) with [hd [] (snd (fst ns_s1))] in S.
  2: change (x_p3 ns_x) with [hd [] (snd (fst ns_s3))] in S.
  3: change (x_p4 ns_x) with [hd [] (snd (fst ns_s4))] in S.
  1: apply (fun H => sent_as_single _ _ _ _ _ _ (ns_parsed (hd [] (snd (fst ns_s1)))) H) in S; [|vm_compute; reflexivity].
  2: apply (fun H => sent_as_single _ _ _ _ _ _ (ns_parsed (hd [] (snd (fst ns_s3)))) H) in S; [|vm_compute; reflexivity].
  3: apply (fun H => sent_as_single _ _ _ _ _ _ (ns_parsed (hd [] (snd (fst ns_s4)))) H) in S; [|vm_compute; reflexivity].
  all: subst m; vm_compute; reflexivity.
Qed.
Lemma ns_start : start_net3 toy ns_alice ns_bob ns_a0 ns_b0 ns_x.
Proof.
  split; [exists []; constructor|]. split; [exists []; constructor|].
  split; [split; reflexivity || (vm_compute; discriminate)|]. split; [split; reflexivity || (vm_compute; discriminate)|].
  split; [repeat split|]. split; [repeat split|].
  split; [right; split; [discriminate|split; reflexivity]|]. split; [reflexivity|]. split; [exact toy_params_ok|].
  split; [|split; [reflexivity|exact ns_plain]].
  exists tk_a, tk_b. split; [apply toy_dsa_key_ok; vm_compute; reflexivity|]. split; [apply toy_dsa_key_ok; vm_compute; reflexivity|].
  split; reflexivity.
Qed.

(* Alice says "hi" in small fragments; Bob answers "y\0o" *)
Definition ns_l0 : link := mkLink (x_sa2 ns_x) (x_sb3 ns_x) [] [].
Definition ns_l4 : link := mkLink (fst (fst ns_conv4)) (fst (fst ns_conv3)) [] [].
Definition ns_yo : bytes := [x79; x00; x6f].
Definition ns_hs : list happening :=
  [Sends true xs_hi; Arrives true xs_hi (snd ns_conv2) []; Sends false ns_yo; Arrives false ns_yo (snd ns_conv4) []].
Lemma ns_run : net_run toy 301 400 ns_l0 ns_hs ns_l4.
Proof.
  apply (n_step toy 301 400 ns_l0 [Sends true xs_hi; Arrives true xs_hi (snd ns_conv2) []; Sends false ns_yo]
           (mkLink (fst (fst ns_conv1)) (fst (fst ns_conv3)) [] [(ns_ps2, ns_yo)])).
  2:{ apply (n_arrive_b toy 301 400 (mkLink (fst (fst ns_conv1)) (fst (fst ns_conv3)) [] [(ns_ps2, ns_yo)]) (xs_ea x29 0) ns_ps2 ns_yo []);
        [reflexivity|vm_compute; reflexivity|]. cbn. intros I. repeat (destruct I as [I|I]; [discriminate|]). exact I. }
  apply (n_step toy 301 400 ns_l0 [Sends true xs_hi; Arrives true xs_hi (snd ns_conv2) []]
           (mkLink (fst (fst ns_conv1)) (fst (fst ns_conv2)) [] [])).
  2:{ apply (n_send_b toy 301 400 (mkLink (fst (fst ns_conv1)) (fst (fst ns_conv2)) [] []) (xs_eb x28 0));
        [vm_compute; reflexivity|reflexivity|]. split; [vm_compute; discriminate|]. cbn. intros L. exfalso. lia. }
  apply (n_step toy 301 400 ns_l0 [Sends true xs_hi] (mkLink (fst (fst ns_conv1)) (x_sb3 ns_x) [(ns_ps1, xs_hi)] [])).
  2:{ apply (n_arrive_a toy 301 400 (mkLink (fst (fst ns_conv1)) (x_sb3 ns_x) [(ns_ps1, xs_hi)] []) (xs_eb x27 0) ns_ps1 xs_hi []);
        [reflexivity|vm_compute; reflexivity|]. cbn. intros I. repeat (destruct I as [I|I]; [discriminate|]). exact I. }
  apply (n_step toy 301 400 ns_l0 [] ns_l0); [constructor|].
  apply (n_send_a toy 301 400 ns_l0 (small (xs_ea x26 0))); [vm_compute; reflexivity|reflexivity|].
  split; [vm_compute; discriminate|]. intros _. repeat (apply Forall_cons || apply Forall_nil); vm_compute; discriminate.
Qed.
Lemma ns_turns : alternating true ns_hs.
Proof.
  apply (al_turn false [Sends true xs_hi; Arrives true xs_hi (snd ns_conv2) []]).
  apply (al_turn true []). constructor.
Qed.
