(* A farewell that arrives, for C73. *)
From Verif Require Import Base Types Crypto ToyCrypto Encoding Messages MessagesProofs Fragment SpecData3 KeyManager DataV3 Ratchet DataV4 Protocol Session SpecSession SessionProofs SessionRecvProofs
  SessionLemmas SessionExamples SpecNet
  Data3Lemmas NetExamples Net4Examples SpecFollow SpecTexts TextsExamples SpecEnded.
Local Open Scope N_scope.

(* Alice ends the OTRv4 conversation *)
Definition ed4_ends := Eval vm_compute in end_session toy (xs_ea x34 400) (snd tf_a) 400.
Definition ed4_bye := Eval vm_compute in hd [] (snd (fst ed4_ends)).
Definition ed4_told := Eval vm_compute in receive toy (xs_eb x27 0) (snd tf_b) ed4_bye.
Lemma ed4_receives : receive toy (xs_eb x27 0) (snd tf_b) ed4_bye = (fst (fst ed4_told), [], Ok (UMSessionFinished 301 [])).
Proof. vm_compute. reflexivity. Qed.
(* the message with which the client in state st ends the conversation *)
Definition ed_goodbye (rnd : send_rnd) (st : pstate) : option encoded_type :=
  match st with
  | PEnc3 our their k _ => match encrypt3 toy our their k true DISCONNECT with Ok (m, _) => Some (MData m) | _ => None end
  | PEnc4 our their d _ =>
      match encrypt4 toy our their (fst (dr_collect_reveals d)) true DISCONNECT (snd (dr_collect_reveals d)) rnd with
      | Ok (m, _) => Some (MData4 m) | _ => None end
  | _ => None
  end.
Lemma ed_ends_with rnd s t m : ed_goodbye rnd (state_of s t) = Some m -> ends_with toy s t m.
Proof.
  unfold ed_goodbye, ends_with, goodbye. intros H. exists rnd. destruct (state_of s t) as [|our their k smp|our their d smp|]; try discriminate.
  - destruct (encrypt3 toy our their k true DISCONNECT) as [[m3 k']|x|]; try discriminate. injection H as <-. exists V3. split; [reflexivity|]. eauto.
  - destruct (encrypt4 toy our their _ true DISCONNECT _ rnd) as [[m4 d']|x|]; try discriminate. injection H as <-. exists V4. split; [reflexivity|]. eauto.
Qed.
Lemma ed_from sA t g sB t' p m em : match_fragment p = false -> parse toy p = Ok (MsgEncoded em) -> ends_with toy sA t m ->
  same_data m (em_message em) -> from_peer toy sA t g sB t' p.
Proof.
  intros MF PA EW SD em' text (b & [(_ & ->)|(f & a & X & _)] & PA') _; [|congruence].
  assert (em' = em) as -> by congruence. right. eauto.
Qed.
Definition ed4_em := Eval vm_compute in match parse toy ed4_bye with Ok (MsgEncoded em) => em | _ => mkEncoded V3 0 0 (MUnencoded []) end.
Lemma ed4_from : from_peer toy (snd tf_a) 400 (concat (each tf_ga)) (snd tf_b) 301 ed4_bye.
Proof.
  apply (ed_from _ _ _ _ _ _ (em_message ed4_em) ed4_em).
  - vm_compute. reflexivity.
  - vm_compute. reflexivity.
  - apply (ed_ends_with (ev_send (xs_ea x34 400))). vm_compute. reflexivity.
  - repeat split.
Qed.

(* Bob ends the OTRv3 conversation *)
Definition ed3_ends := Eval vm_compute in end_session toy (xs_eb x28 301) (snd ts_b) 301.
Definition ed3_bye := Eval vm_compute in hd [] (snd (fst ed3_ends)).
Definition ed3_told := Eval vm_compute in receive toy (xs_ea x29 0) (snd ts_a) ed3_bye.
Lemma ed3_receives : receive toy (xs_ea x29 0) (snd ts_a) ed3_bye = (fst (fst ed3_told), [], Ok (UMSessionFinished 400 [])).
Proof. vm_compute. reflexivity. Qed.
Definition ed3_em := Eval vm_compute in match parse toy ed3_bye with Ok (MsgEncoded em) => em | _ => mkEncoded V3 0 0 (MUnencoded []) end.
Lemma ed3_from : from_peer toy (snd ts_b) 301 (concat (each ts_gb)) (snd ts_a) 400 ed3_bye.
Proof.
  apply (ed_from _ _ _ _ _ _ (em_message ed3_em) ed3_em).
  - vm_compute. reflexivity.
  - vm_compute. reflexivity.
  - apply (ed_ends_with (ev_send (xs_eb x28 301))). vm_compute. reflexivity.
  - repeat split.
Qed.
