(* A peer who announces the key 1. *)
From Verif Require Import Base Types Crypto ToyCrypto Encoding Messages Fragment KeyManager DataV3 SpecData3 Protocol Session SpecSession SessionExamples
  SessionSendProofs NetExamples FollowExamples SpecFollow TextsExamples SpecSchedule SpecContrib ToyGroup.
Local Open Scope N_scope.

(* Alice's first message, with the next key 1 *)
Definition cb_message : data3 := Eval vm_compute in
  match state_of ya_s 400 with
  | PEnc3 our their k _ =>
      match encrypt3 toy our their k false xs_hi with
      | Ok (m, _) =>
          let m1 := mkData3 false (d3_sender_keyid m) (d3_receiver_keyid m) 1 (d3_ctr m) (d3_encrypted m) (repeat x00 20) [] in
          match data_derive toy (dh_public (snd (kr_current (km_ours k)))) (snd (pr_current (km_theirs k))) (write_mpi (km_shared_secret toy k)) with
          | Ok secrets =>
              mkData3 false (d3_sender_keyid m) (d3_receiver_keyid m) 1 (d3_ctr m) (d3_encrypted m)
                (hmac_sha1 toy (sender_mac_key toy secrets) (encode_authenticator_data our their m1)) []
          | _ => m
          end
      | _ => mkData3 false 0 0 0 [] [] [] []
      end
  | _ => mkData3 false 0 0 0 [] [] [] []
  end.
Definition cb_payload : bytes := Eval vm_compute in match encode_message V3 301 400 (MData cb_message) with Ok b => b | _ => [] end.
(* Bob reads it and answers. *)
Definition cb_calls : list ((N -> env) * op) := [(xs_eb x27, OpReceive cb_payload)].
Definition cb_1 := Eval vm_compute in receive toy (xs_eb x27 0) yb_s cb_payload.
Definition cb_2 := Eval vm_compute in send toy (xs_eb x28 301) (fst (fst cb_1)) 301 xs_hi.
Definition cb_answer : data3 := Eval vm_compute in
  match snd cb_2 with
  | Ok (p :: _) => match em_message (ns_parsed p) with MData m => m | _ => mkData3 false 0 0 0 [] [] [] [] end
  | _ => mkData3 false 0 0 0 [] [] [] []
  end.
Lemma cb_read : snd cb_1 = Ok (UMConfidential 301 xs_hi []). Proof. vm_compute. reflexivity. Qed.
Lemma cb_run : history toy xs_bob (yb_h ++ [mkEvent (OpReceive cb_payload) [] (Ok (AnMessage (UMConfidential 301 xs_hi [])))]) (fst (fst cb_1)).
Proof. apply (replay_run toy (session_new xs_bob) cb_calls yb_s yb_h); [exact yb_run|]. vm_compute. reflexivity. Qed.
Lemma cb_parse : parse toy cb_payload = Ok (MsgEncoded (mkEncoded V3 301 400 (MData cb_message))). Proof. vm_compute. reflexivity. Qed.
(* what Bob answers can be read without any key *)
Lemma cb_open : aes_crypt toy (cipher_key3 toy true (write_mpi 1)) (d3_ctr cb_answer ++ repeat x00 8) (d3_encrypted cb_answer) = xs_hi.
Proof. vm_compute. reflexivity. Qed.

Lemma cb_whole : match_fragment cb_payload = false. Proof. vm_compute. reflexivity. Qed.
(* the last call is not the start of the conversation *)
Lemma cb_last h1 p out h2 t : yb_h ++ [mkEvent (OpReceive cb_payload) [] (Ok (AnMessage (UMConfidential 301 xs_hi [])))] =
  h1 ++ mkEvent (OpReceive p) out (Ok (AnMessage (UMSessionStarted t))) :: h2 ->
  exists h3, h2 = h3 ++ [mkEvent (OpReceive cb_payload) [] (Ok (AnMessage (UMConfidential 301 xs_hi [])))].
Proof.
  intros E. destruct h2 as [|e h2 _] using rev_ind.
  - apply app_inj_tail in E. destruct E as [_ E]. discriminate E.
  - replace (h1 ++ mkEvent (OpReceive p) out (Ok (AnMessage (UMSessionStarted t))) :: h2 ++ [e])
      with ((h1 ++ mkEvent (OpReceive p) out (Ok (AnMessage (UMSessionStarted t))) :: h2) ++ [e]) in E by (rewrite <- app_assoc; reflexivity).
    apply app_inj_tail in E. destruct E as [_ <-]. exists h2. reflexivity.
Qed.
Lemma cb_known : contributes3 toy (d3_dh_y cb_message) -> False.
Proof. intros K. specialize (K 0 1 eq_refl). vm_compute in K. discriminate K. Qed.

Lemma cb_safe : safe_prime toy.
Proof.
  split; [|split; [|reflexivity]].
  - apply (prime_by_trial _ 503); vm_compute; reflexivity.
  - apply (prime_by_trial _ 251); vm_compute; reflexivity.
Qed.
Lemma cb_orders : prime_orders toy.
Proof.
  split; [|split; [|reflexivity]].
  - apply (prime_by_trial _ 53); vm_compute; reflexivity.
  - apply (prime_by_trial _ 251); vm_compute; reflexivity.
Qed.
