(* Toy sessions for the answers to messages. *)
From Verif Require Import Base Types Crypto ToyCrypto Encoding Messages Protocol Session Ratchet DataV4 SpecWire SpecSession SessionRecvProofs SessionLemmas SessionExamples
  SpecReplies.
Local Open Scope N_scope.

(* Alice aborts the Socialist Millionaire Protocol (OTRv4); Bob receives the message *)
Definition rp_p := Eval vm_compute in xs_injected (abort_smp toy (xs_ea x26 400) za_s 400).
Definition rp_em := Eval vm_compute in match parse toy rp_p with Ok (MsgEncoded em) => em | _ => mkEncoded V4 0 0 (MUnencoded []) end.
Definition rp_abort : tlv := mkTlv 6 [].
Definition rp_x : utterance := mkUtterance (MsgEncoded rp_em) (x00 :: tlv_bytes rp_abort).
Definition rp_end := Eval vm_compute in receive toy (xs_eb x27 0) zb_s rp_p.
Definition rp_s := Eval cbv beta iota delta [rp_end fst] in fst (fst rp_end).
Definition rp_out := Eval cbv beta iota delta [rp_end fst snd] in snd (fst rp_end).
Definition rp_r := Eval cbv beta iota delta [rp_end snd] in snd rp_end.

Lemma rp_receive : receive toy (xs_eb x27 0) zb_s rp_p = (rp_s, rp_out, rp_r).
Proof. vm_compute. reflexivity. Qed.
Definition rp_d4 := Eval vm_compute in match em_message rp_em with MData4 m => Some m | _ => None end.
Lemma rp_decrypts : match state_of zb_s 301, rp_d4 with
  | PEnc4 our their k smp, Some m => em_message rp_em = MData4 m /\ em_version rp_em = V4 /\ data4_validate toy m = Ok tt /\
      snd (decrypt4 toy k m (encode_authenticator_data4 (em_sender rp_em) (em_receiver rp_em) m) (ev_now (xs_eb x27 0))) = Ok (x00 :: tlv_bytes rp_abort)
  | _, _ => False
  end.
Proof. vm_compute. repeat apply conj; reflexivity. Qed.
Lemma rp_opens : opens toy (state_of zb_s 301) rp_em (x00 :: tlv_bytes rp_abort).
Proof.
  pose proof rp_decrypts as D. generalize dependent (state_of zb_s 301). intros st D. generalize dependent (x00 :: tlv_bytes rp_abort). intros text D.
  destruct st as [|our their k smp|our their k smp|]; try contradiction. destruct rp_d4 as [m|]; [|contradiction].
  destruct D as (M & V & VA & D). destruct (decrypt4 _ _ _ _ _) as [k' x] eqn:E. cbn [snd] in D. subst x.
  apply (decrypts_opens _ (xs_eb x27 0) _ _ (PEnc4 our their k' smp)). unfold decrypts. rewrite M. eauto.
Qed.
Lemma rp_hears : hears toy zb_s rp_p rp_x.
Proof.
  exists rp_p. split; [left; split; [vm_compute; reflexivity|reflexivity]|]. split; [vm_compute; reflexivity|].
  intros em text E O. injection E as <-. eapply opens_det; [exact rp_opens|exact O].
Qed.
Lemma rp_parts : (exists m, em_message rp_em = MData4 m) /\ one_record V4 (ut_inside rp_x) rp_abort /\ rp_r <> Panic /\
  rp_out <> [] /\ forall t, rp_out <> [OTR_ERROR_PREFIX ++ t].
Proof.
  split; [eexists; reflexivity|]. split.
  { exists [], [rp_abort]. split; [|reflexivity]. apply parse_shows. vm_compute. reflexivity. }
  split; [discriminate|]. split; [discriminate|]. intros t E. discriminate E.
Qed.
