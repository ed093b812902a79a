(* C26-C28: the OTRv3 key exchange.  Only statements, references to their proofs, and examples showing
   that the hypotheses are met. *)
From Verif Require Import Base BaseLemmas Types Crypto ToyCrypto Encoding Messages SpecWire AKE SpecAKE AKEProofs
  AKEConvProofs AKELemmas KeyManager SpecData3.
From Coq Require Import Lia ZifyN ZifyNat.
Local Open Scope N_scope.

(** * C26: agreement *)

(* For every pair of working DSA keys, every choice of random values, and whatever the responder was
   doing before (except waiting for a Reveal Signature, see below; and except having sent a commitment
   that wins the tie-break, see C28): if each message is delivered, the exchange completes on both sides
   with the same session id, each other's keys and each other's identity.  The only exceptions are the
   all-zero hash or MAC and D-H keys outside the admitted range. *)
Theorem C26_agreement : forall C ka kb xa r xb na nb b0,
  dh_params_ok C -> dsa_key_ok C ka -> dsa_key_ok C kb -> xa <> 0 -> xb <> 0 ->
  dh_public_ok C (dh_public (dh_new C xa)) -> dh_public_ok C (dh_public (dh_new C xb)) ->
  exists a1 commit, ake_initiate C xa r = Ok (a1, commit) /\
  (any_nonzero (dc_gx_hashed commit) = true -> answers C b0 commit ->
   exists b1 key, ake_handle_dhcommit C b0 commit xb = (b1, Ok (ReplyKey key)) /\
   exists a2 reveal, ake_handle_dhkey C (Some ka) na a1 key = (a2, Ok reveal) /\
   (any_nonzero (rv_signature_mac reveal) = true ->
    exists mb sg, ake_handle_reveal C (Some kb) nb b1 reveal = (AkeNone, Ok (mb, sg)) /\
    (any_nonzero (sg_signature_mac sg) = true ->
     exists ma, ake_handle_signature C a2 sg = (AkeNone, Ok ma) /\
     am_our_dh ma = dh_new C xa /\ am_our_dh mb = dh_new C xb /\ ake_agree C ka kb ma mb))).
Proof. intros C ka kb xa r xb na nb b0 PO. exact (agreement C PO ka kb xa r xb na nb b0). Qed.
Print Assumptions C26_agreement.

(* The data messages that follow start from matching keys (the start of the conversations of C20). *)
Theorem C26_first_keys : forall C ka kb xa xb ma mb ra0 ra1 rb0 rb1 a b,
  ake_agree C ka kb ma mb -> am_our_dh ma = dh_new C xa -> am_our_dh mb = dh_new C xb ->
  km_new C 1 (am_our_dh ma) 1 (am_their_dh ma) ra0 ra1 = Ok a ->
  km_new C 1 (am_our_dh mb) 1 (am_their_dh mb) rb0 rb1 = Ok b ->
  start3 C (mkConv3 a b [] []).
Proof. exact first_keys. Qed.
Print Assumptions C26_first_keys.

Example C26_ex :
  dh_params_ok toy /\ dsa_key_ok toy tk_a /\ dsa_key_ok toy tk_b /\
  dh_public_ok toy (dh_public (dh_new toy 17)) /\ dh_public_ok toy (dh_public (dh_new toy 29)) /\
  any_nonzero (dc_gx_hashed te_commit) = true /\ answers toy AkeNone te_commit /\
  any_nonzero (rv_signature_mac te_reveal) = true /\ any_nonzero (sg_signature_mac te_sig) = true /\
  ake_handle_reveal toy (Some tk_b) [] te_b1 te_reveal
    = (AkeNone, Ok (honest_mat_b toy tk_a 17 29, te_sig)) /\
  ake_handle_signature toy te_a2 te_sig = (AkeNone, Ok (honest_mat_a toy tk_b 17 29)).
Proof.
  split; [exact toy_params_ok|]. split; [now apply toy_dsa_key_ok|]. split; [now apply toy_dsa_key_ok|].
  split; [apply toy_public; reflexivity|]. split; [apply toy_public; reflexivity|].
  split; [reflexivity|]. split; [exact I|]. split; [vm_compute; reflexivity|]. split; [vm_compute; reflexivity|].
  split; vm_compute; reflexivity.
Qed.

(* The full property quantifies over every state of the responder.  It fails when the responder waits for
   a Reveal Signature and the initiator starts again: the responder keeps the old commitment (although
   it answers the new one) and then refuses the exchange. *)
Theorem C26_restart_refuted :
  ~ (forall C ka kb xa r xb na nb b0 a1 commit b1 key a2 reveal,
       dh_params_ok C -> dsa_key_ok C ka -> dsa_key_ok C kb -> xa <> 0 -> xb <> 0 ->
       dh_public_ok C (dh_public (dh_new C xa)) ->
       any_nonzero (dc_gx_hashed commit) = true -> any_nonzero (rv_signature_mac reveal) = true ->
       ake_run C (Some kb) b0 ->
       ake_initiate C xa r = Ok (a1, commit) ->
       ake_handle_dhcommit C b0 commit xb = (b1, Ok (ReplyKey key)) ->
       ake_handle_dhkey C (Some ka) na a1 key = (a2, Ok reveal) ->
       exists b2 mb sg, ake_handle_reveal C (Some kb) nb b1 reveal = (b2, Ok (mb, sg))).
Proof.
  intros H.
  set (a1 := AkeAwaitingDHKey (dh_new toy 23) tr_b).
  set (c := dhcommit_message toy (dh_new toy 23) tr_b).
  set (p := ake_handle_dhkey toy (Some tk_a) [] a1 te_key).
  destruct (H toy tk_a tk_b 23 tr_b 31 [] [] te_b1 a1 c te_b1 te_key (fst p)
              (match snd p with Ok r => r | _ => te_reveal end)) as (b2 & mb & sg & X).
  - exact toy_params_ok.
  - now apply toy_dsa_key_ok.
  - now apply toy_dsa_key_ok.
  - discriminate.
  - discriminate.
  - apply toy_public. reflexivity.
  - vm_compute. reflexivity.
  - vm_compute. reflexivity.
  - exact te_run_b.
  - vm_compute. reflexivity.
  - vm_compute. reflexivity.
  - vm_compute. reflexivity.
  - revert X. vm_compute. discriminate.
Qed.
Print Assumptions C26_restart_refuted.

(** * C27: proofs *)

(* A Reveal Signature completes the exchange only in the state that waits for it, and only if the
   revealed value hashes to the commitment, is an admitted D-H key, and the message proves the peer's
   identity for these two keys. *)
Theorem C27_reveal_proves : forall C host nonce st m st' mat sg,
  0 < c_dh_g C -> ake_handle_reveal C host nonce st m = (st', Ok (mat, sg)) ->
  exists our ge gh gx more rest,
    st = AkeAwaitingRevealSig our ge gh /\ st' = AkeNone /\
    let gxmpi := aes_crypt C (rv_key m) (repeat x00 16) ge in
    let s := modpow gx (dh_private our) (c_dh_p C) in
    sha256 C gxmpi = gh /\ read_mpi gxmpi = Ok (gx, more) /\ dh_public_ok C gx /\
    identity_proof3 C false s gx (dh_public our) (am_their_dsa mat) (rv_signature_encrypted m)
      (rv_signature_mac m) rest /\
    am_ssid mat = firstn 8 (derived3 C x00 s) /\ am_our_dh mat = our /\ am_their_dh mat = gx.
Proof. exact reveal_needs_proof. Qed.
Print Assumptions C27_reveal_proves.

(* A Signature message likewise, after any history; here nothing may follow the proof. *)
Theorem C27_signature_proves : forall C host st m st' mat,
  0 < c_dh_g C -> ake_run C host st -> ake_handle_signature C st m = (st', Ok mat) ->
  exists x gy s prev,
    st = AkeAwaitingSig (dh_new C x) gy s prev /\ st' = AkeNone /\ dh_public_ok C gy /\
    s = modpow gy x (c_dh_p C) /\
    identity_proof3 C true s gy (dh_public (dh_new C x)) (am_their_dsa mat) (sg_signature_encrypted m)
      (sg_signature_mac m) [] /\
    am_ssid mat = firstn 8 (derived3 C x00 s) /\ am_our_dh mat = dh_new C x /\ am_their_dh mat = gy.
Proof. exact signature_needs_proof. Qed.
Print Assumptions C27_signature_proves.

(* The commitment to be opened is the one received, or the one already waited for. *)
Theorem C27_commitment_origin : forall C st m rnd our ge gh r,
  ake_handle_dhcommit C st m rnd = (AkeAwaitingRevealSig our ge gh, r) ->
  (ge = dc_gx_encrypted m /\ gh = dc_gx_hashed m) \/ st = AkeAwaitingRevealSig our ge gh.
Proof. exact commitment_origin. Qed.
Print Assumptions C27_commitment_origin.

Theorem C27_failure_no_effect : forall C host nonce rnd st st' e,
  (forall m, ake_handle_dhcommit C st m rnd = (st', Err e) -> st' = st) /\
  (forall m, ake_handle_dhkey C host nonce st m = (st', Err e) -> st' = st) /\
  (forall m, ake_handle_reveal C host nonce st m = (st', Err e) -> st' = st) /\
  (forall m, ake_handle_signature C st m = (st', Err e) -> st' = st).
Proof. exact failure_no_effect. Qed.
Print Assumptions C27_failure_no_effect.

(* A client that has a DSA key survives every message in every state (non-zero random numbers). *)
Theorem C27_no_crash : forall C k rnd nonce st m,
  rnd <> 0 -> ake_receive C (Some k) rnd nonce st m <> None.
Proof. exact receive_safe. Qed.
Print Assumptions C27_no_crash.

Example C27_ex :
  ake_run toy (Some tk_a) te_a2 /\ snd (ake_handle_signature toy te_a2 te_sig) = Ok (honest_mat_a toy tk_b 17 29) /\
  snd (ake_handle_signature toy te_a2 (mkSigMsg (sg_signature_encrypted te_sig) (repeat x01 20)))
    = Err AuthenticationError.
Proof. split; [exact te_run_a|]. split; vm_compute; reflexivity. Qed.

(** * C28: simultaneous starts *)

(* Of two clients that sent commitments to each other, exactly one repeats its own and stays, and the
   other answers it with a D-H Key. *)
Theorem C28_one_yields : forall C our_a ra our_b rb rnda rndb,
  let ca := dhcommit_message C our_a ra in
  let cb := dhcommit_message C our_b rb in
  let sa := AkeAwaitingDHKey our_a ra in
  let sb := AkeAwaitingDHKey our_b rb in
  rnda <> 0 -> rndb <> 0 -> be_val (dc_gx_hashed ca) <> be_val (dc_gx_hashed cb) ->
  (ake_handle_dhcommit C sa cb rnda = (sa, Ok (ReplyCommit ca)) /\
   exists nb, ake_handle_dhcommit C sb ca rndb
     = (AkeAwaitingRevealSig nb (dc_gx_encrypted ca) (dc_gx_hashed ca), Ok (ReplyKey (mkDHKey (dh_public nb)))))
  \/
  (ake_handle_dhcommit C sb ca rndb = (sb, Ok (ReplyCommit cb)) /\
   exists na, ake_handle_dhcommit C sa cb rnda
     = (AkeAwaitingRevealSig na (dc_gx_encrypted cb) (dc_gx_hashed cb), Ok (ReplyKey (mkDHKey (dh_public na))))).
Proof. exact tie_break. Qed.
Print Assumptions C28_one_yields.

(* Both sides start at the same time; the network delivers all messages in some order that keeps the
   order of each direction.  When nothing is under way any more, both sides have completed exactly one
   exchange, they agree, and it is the one started by the side with the larger commitment. *)
Theorem C28_one_exchange : forall C ka kb xa xb s0 s,
  dh_params_ok C -> dsa_key_ok C ka -> dsa_key_ok C kb ->
  dh_public_ok C (dh_public (dh_new C xa)) -> dh_public_ok C (dh_public (dh_new C xb)) ->
  both_initiated C s0 xa xb -> commit_hash C xa <> commit_hash C xb ->
  ake_steps C ka kb s0 s -> an_ab s = [] -> an_ba s = [] ->
  an_a s = AkeNone /\ an_b s = AkeNone /\
  exists ma mb, an_done_a s = [ma] /\ an_done_b s = [mb] /\ ake_agree C ka kb ma mb /\
    (commit_hash C xb < commit_hash C xa -> am_our_dh ma = dh_new C xa) /\
    (commit_hash C xa < commit_hash C xb -> am_our_dh mb = dh_new C xb).
Proof. exact tie_resolves. Qed.
Print Assumptions C28_one_exchange.

Example C28_ex :
  both_initiated toy tie_s0 17 29 /\ commit_hash toy 17 <> commit_hash toy 29 /\
  exists s, ake_steps toy tk_a tk_b tie_s0 s /\ an_ab s = [] /\ an_ba s = [] /\ length (an_done_a s) = 1%nat.
Proof.
  split; [|split].
  - exists tr_a, tr_b, te_commit, (dhcommit_message toy (dh_new toy 29) tr_b). repeat split.
  - vm_compute. discriminate.
  - destruct (net_steps toy tk_a tk_b tie_s0 tie_schedule) as [s|] eqn:E; [|exfalso; revert E; vm_compute; discriminate].
    exists s. split; [apply (net_steps_ok toy tk_a tk_b tie_schedule tie_s0 tie_s0 s); [reflexivity|constructor|exact E]|].
    revert E. vm_compute. intros [= <-]. repeat split.
Qed.
