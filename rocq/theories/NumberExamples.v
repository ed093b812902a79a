(* Toy data for the key numbers: Bob announces key number 2 in its Signature message. *)
From Verif Require Import Base BaseLemmas Types Crypto ToyCrypto Encoding ClientProfile Messages Fragment KeyManager
  DataV3 Ratchet DataV4 SpecCurve ToyGroup AKE AKELemmas DAKE DAKEExamples SMP SMP4 Protocol Session SpecAKE SpecDAKE SpecData4 Data4Examples
  SpecSession SessionExamples SpecNet NetExamples Net4Examples SpecStart StartProofs StartLemmas StartExamples SpecNumber.
Local Open Scope N_scope.

(* Alice waits for the Signature message *)
Definition nb_calls : list ((N -> env) * op) := [(xs_ea x21, OpReceive xs_query3); (xs_ea x23, OpReceive dh_key)].
Definition nb_end := Eval vm_compute in xs_end (replay toy xs_a0 [] nb_calls).
Lemma nb_run : history toy xs_alice (fst nb_end) (snd nb_end).
Proof. apply (replay_run toy xs_a0 nb_calls xs_a0 []); [constructor|]. vm_compute. reflexivity. Qed.
Definition nb_state := Eval vm_compute in in_ake (entry 400 (se_instances (snd nb_end))).
Definition nb_sig (n : N) : dsa_sig :=
  match nb_state with
  | AkeAwaitingSig our gy s _ => dsa_sign toy tk_b [] (ake_m toy (as_m1p (ake_derive toy (write_mpi s))) gy (dh_public our) (dsa_pk tk_b) n)
  | _ => mkDsaSig 0 0
  end.
(* the proof of the identity of tk_b, as in AKE.v, with key number n *)
Definition nb_proof (n : N) : sig_msg :=
  match nb_state with
  | AkeAwaitingSig our gy s _ =>
      let secrets := ake_derive toy (write_mpi s) in
      let x := write_public_key (dsa_pk tk_b) ++ write_u32 n ++ write_dsa_signature (nb_sig n) in
      let enc := aes_crypt toy (as_cp secrets) zero_nonce x in
      mkSigMsg enc (hmac160 toy (as_m2p secrets) (write_data enc))
  | _ => mkSigMsg [] []
  end.
Definition nb_payload (m : encoded_type) : bytes := match encode_message V3 400 301 m with Ok b => b | _ => [] end.
Definition nb_signature := Eval vm_compute in nb_payload (MSignature (nb_proof 2)).
Definition nb_em := Eval vm_compute in ns_parsed nb_signature.
Definition nb_s := Eval vm_compute in fst (fst (receive toy (xs_ea x25 0) (snd nb_end) nb_signature)).
Lemma nb_starts : starts toy (xs_ea x25 0) (snd nb_end) nb_signature nb_em nb_s.
Proof. split; [apply carries_whole; vm_compute; reflexivity|]. exists []. vm_compute. reflexivity. Qed.
Lemma nb_announces : announces toy (snd nb_end) nb_em 2.
Proof.
  do 4 eexists. exists (nb_proof 2). exists (dsa_pk tk_b). split; [vm_compute; reflexivity|]. split; [vm_compute; reflexivity|]. split; [vm_compute; reflexivity|].
  exists (nb_sig 2), []. split; [vm_compute; reflexivity|]. split; reflexivity.
Qed.
(* Alice's first text, and a text of Bob under key number 2 *)
Definition nb_sent := Eval vm_compute in send toy (xs_ea x26 400) nb_s 400 xs_hi.
Definition nb_s1 := Eval vm_compute in fst (fst nb_sent).
Definition nb_text := Eval vm_compute in match snd nb_sent with Ok [p] => p | _ => [] end.
Lemma nb_sends : send toy (xs_ea x26 400) nb_s 400 xs_hi = (nb_s1, [], Ok [nb_text]).
Proof. vm_compute. reflexivity. Qed.
Definition nb_text_em := Eval vm_compute in ns_parsed nb_text.
Lemma nb_parsed : parse toy nb_text = Ok (MsgEncoded nb_text_em). Proof. vm_compute. reflexivity. Qed.
Definition nb_text_m := Eval vm_compute in match em_message nb_text_em with MData m => m | _ => mkData3 false 0 0 0 [] [] [] [] end.
Definition nb_two := Eval vm_compute in
  nb_payload (MData (mkData3 false 2 1 (d3_dh_y nb_text_m) (d3_ctr nb_text_m) (d3_encrypted nb_text_m) (d3_authenticator nb_text_m) [])).
Definition nb_two_em := Eval vm_compute in ns_parsed nb_two.
Lemma nb_legal : legal_details xs_alice. Proof. split; vm_compute; [discriminate|reflexivity]. Qed.
