(* Vocabulary for the ways in which the calls of a host can crash the process. *)
From Verif Require Import Base Types Crypto Encoding ClientProfile Messages Fragment KeyManager DataV3 Ratchet DataV4
  AKE DAKE SMP SMP4 Protocol Session SpecWire SpecData3 SpecData4 SpecSMP SpecSMP4 SpecDAKE SpecSession SpecCrash.
Local Open Scope N_scope.

Section WithCrypto.
Context (C : Crypto).

(* No message can be encrypted any more in the given state, because numbers have come to their end or because the peer
   uses the own key. *)
Definition seal_peer (st : pstate) : Prop :=
  match st with PEnc3 _ _ k _ => seal3_peer k | PEnc4 _ _ d _ => seal4_peer d | _ => False end.
(* By chance the text cannot be encrypted in the given state. *)
Definition seal_chance (e : env) (st : pstate) (ignore : bool) (text : bytes) : Prop :=
  match st with
  | PEnc3 our their k _ => text <> [] /\ seal3_chance C our their k ignore text
  | PEnc4 our their d _ => seal4_chance C our their d ignore text (ev_send e)
  | _ => False
  end.

(* the record that starts the Socialist Millionaire Protocol *)
Definition first_record (e : env) (st : pstate) (secret question : bytes) (record : tlv) : Prop :=
  match st with
  | PEnc3 _ _ _ smp => exists smp', smp_initiate C (ev_smp_host e) (ev_smp e) smp secret question = (smp', Ok record)
  | PEnc4 _ _ _ smp => exists smp', smp4_initiate C (ev_smp4 e) smp secret question = (smp', Ok record)
  | _ => False
  end.
(* What the call o tells the client t, which is in the given state, if they have a private conversation. *)
Definition tells (e : env) (st : pstate) (o : op) (t : N) (ignore : bool) (text : bytes) : Prop :=
  match o with
  | OpSend u content => u = t /\ ignore = false /\ text = without_nul content
  | OpEnd u => u = t /\ ignore = true /\ text = DISCONNECT
  | OpStartSmp u secret question => u = t /\ ignore = true /\
      exists record, first_record e st secret question record /\ text = x00 :: tlv_bytes record
  | OpAbortSmp u => u = t /\ ignore = true /\ text = x00 :: tlv_bytes (mkTlv 6 [])
  | OpExpire timeout => ignore = true /\ text = DISCONNECT /\
      exists our their d smp, st = PEnc4 our their d smp /\ timeout <= ev_now e - dr_created d
  | _ => False
  end.

(* Hashes for the first record of OTRv4: the commitments of its proofs, and the secret. *)
Definition smp4_start_chance (rnd : smp4_rnd) (c : smp4_context) (secret : bytes) : Prop :=
  let G := c_ed_g C in
  zero_scalar C x01 (pt_encode (pt_mul C G (s4_r2 rnd))) \/ zero_scalar C x02 (pt_encode (pt_mul C G (s4_r3 rnd))) \/
  zero_scalar C x19 (x01 :: s4_us c ++ s4_them c ++ s4_ssid c ++ write_data secret) \/
  pt_verify C (pt_mul C G (s4_2 rnd)) = false \/ pt_verify C (pt_mul C G (s4_3 rnd)) = false.

(* The session with t alone. *)
Definition only (s : session) (t : N) : session :=
  mkSession (se_details s) [(t, entry t (se_instances s))] (se_tagged s).

(* The call o crashes the session s: because of what the peer did, *)
Definition call_peer (es : N -> env) (s : session) (o : op) : Prop :=
  match o with
  | OpReceive p => peer_crashes C (es 0) s p
  | _ => exists t ignore text, tells (es t) (state_of s t) o t ignore text /\ seal_peer (state_of s t)
  end.
(* by chance, *)
Definition call_chance (es : N -> env) (s : session) (o : op) : Prop :=
  match o with
  | OpReceive p => chance_crashes C (es 0) s p
  | _ =>
      (exists t ignore text, tells (es t) (state_of s t) o t ignore text /\ seal_chance (es t) (state_of s t) ignore text) \/
      match o with
      | OpInitiate v t =>
          (v = V3 /\ ev_dh (es t) = 0) \/
          (v = V4 /\ (bad_seed C (dn_ecdh (ev_dake (es t))) \/ bad_seed C (dn_ecdh0 (ev_dake (es t)))))
      | OpStartSmp t secret _ =>
          exists our their d c, state_of s t = PEnc4 our their d c /\ smp4_start_chance (ev_smp4 (es t)) c secret
      | _ => False
      end
  end.
(* by what the host does.  An empty text cannot be sent in OTRv3, nor a text of NULs; a key exchange cannot be started
   for other versions than 3 and 4, nor with a tag that is not legal; for the Socialist Millionaire Protocol of OTRv3 a
   DSA key is needed, and questions have a maximal size.  Or the message is too large for the transport. *)
Definition call_host (es : N -> env) (s : session) (o : op) : Prop :=
  match o with
  | OpReceive p => host_crashes C (es 0) s p
  | _ =>
      match o with
      | OpSend t content => without_nul content = [] /\ exists our their k smp, state_of s t = PEnc3 our their k smp
      | OpInitiate v t => (v <> V3 /\ v <> V4) \/ 0 < t < 256
      | OpStartSmp t _ question => 64000 < N.of_nat (length question) \/
          (ev_dsa (es t) = None /\ exists our their k smp, state_of s t = PEnc3 our their k smp)
      | _ => False
      end \/
      exists t b, unsendable (es t) b /\
        let '(_, out, r) := call C (fun _ => with_size (es t) (length b)) (only s t) o in
        out = [b] \/ r = Ok (AnPayloads [b])
  end.

End WithCrypto.
