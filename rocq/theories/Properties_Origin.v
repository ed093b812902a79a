(* Theorems about the origin of private conversations: what must have been sent, received and proved before a session
   reports one. *)
From Verif Require Import Base Types Crypto ToyCrypto Encoding ClientProfile Messages AKELemmas DAKE DAKEExamples Protocol Session SpecCurve ToyGroup SpecWire
  SpecData3 SpecData4 SpecAKE SpecDAKE SpecSession SessionExamples SpecNet Data3Lemmas Data4Examples NetExamples Net4Examples StartExamples
  SpecOrigin OriginProofs OriginExamples.
Local Open Scope N_scope.

(** * C68: a private conversation rests on an exchange with the peer *)

(* When a message makes the session report a conversation with t, then this message came from t and was addressed to this
   client, its version is allowed, and it completes an exchange of messages that, according to the history, this session
   sent to t (or offered to all clients) and received from t.  The exchange authenticates the peer: in OTRv3, the owner of
   the DSA key whose fingerprint the conversation has signed both keys; in OTRv4, the owner of the identity key of the
   peer's profile signed all messages of the exchange and the names of both users.  The keys of the conversation are
   those of the exchange. *)
Theorem C68_start_proven : forall C d h s es p s' out t, curve_ok C -> 0 < c_dh_g C -> history C d h s ->
  call C es s (OpReceive p) = (s', out, Ok (AnMessage (UMSessionStarted t))) ->
  exists em, carries C s p em /\ em_sender em = t /\ em_receiver em = de_tag d /\ allowed d (em_version em) /\
    proven C d h t em (state_of s' t).
Proof. intros C d h s es p s' out t CO GP HI H. exact (start_proven C d CO GP h s es p s' out t HI H). Qed.
Print Assumptions C68_start_proven.

(* Hence every private conversation, at any later time, goes back to such a start, and has its session identifier. *)
Theorem C68_conversation_proven : forall C d h s t, curve_ok C -> 0 < c_dh_g C -> history C d h s -> status_of s t = Encrypted ->
  exists h1 s1 p out s2 h2 em, h = h1 ++ mkEvent (OpReceive p) out (Ok (AnMessage (UMSessionStarted t))) :: h2 /\ history C d h1 s1 /\
    carries C s1 p em /\ em_sender em = t /\ em_receiver em = de_tag d /\ allowed d (em_version em) /\
    proven C d h1 t em (state_of s2 t) /\
    run C s2 h2 s /\ Forall (fun ev => ~ started_with t ev) h2 /\ ses_ssid s t = ses_ssid s2 t.
Proof. intros C d h s t CO GP HI SE. exact (conversation_proven C d CO GP h s t HI SE). Qed.
Print Assumptions C68_conversation_proven.

(* Both versions and both roles. *)
Example C68_ex : curve_ok toy /\ 0 < c_dh_g toy /\
  (history toy xs_alice (fst za_end1) (snd za_end1) /\ call toy (xs_ea x44) (snd za_end1) (OpReceive auth_r) = (za_s, [auth_i], Ok (AnMessage (UMSessionStarted 400)))) /\
  (history toy xs_bob (fst zb_end1) (snd zb_end1) /\ call toy (xs_eb x54) (snd zb_end1) (OpReceive auth_i) = (zb_s, [], Ok (AnMessage (UMSessionStarted 301)))) /\
  (history toy xs_alice (fst ya_end2) (snd ya_end2) /\ call toy (xs_ea x25) (snd ya_end2) (OpReceive signature) = (ya_s, [], Ok (AnMessage (UMSessionStarted 400)))) /\
  (history toy xs_bob (fst yb_end1) (snd yb_end1) /\ call toy (xs_eb x24) (snd yb_end1) (OpReceive reveal) = (yb_s, [signature], Ok (AnMessage (UMSessionStarted 301)))) /\
  (history toy xs_alice ya_h ya_s /\ status_of ya_s 400 = Encrypted).
Proof.
  split; [exact toy_curve_ok|]. split; [reflexivity|]. split; [split; [exact za_run1|exact oz_a]|]. split; [split; [exact zb_run1|exact oz_b]|].
  split; [split; [exact ya_run2|exact oy_a]|]. split; [split; [exact yb_run1|exact oy_b]|]. split; [exact ya_run|vm_compute; reflexivity].
Qed.

(** * C69: a profile counts only for the client that owns it *)

(* Full property: when a session reports an OTRv4 conversation with client t, then the profile that was received in the
   exchange belongs to client t.  It does not hold: the owner's tag in the profile is never compared with the sender's tag
   of the message.  Who forwards Bob's messages under another tag makes Alice report a conversation with a client that
   does not exist. *)
Theorem C69_refuted : ~ (forall C d h s es p s' out t em m profile, curve_ok C -> history C d h s ->
  call C es s (OpReceive p) = (s', out, Ok (AnMessage (UMSessionStarted t))) ->
  carries C s p em -> em_message em = MAuthR m -> payload_accepted C (ar_profile m) profile -> cp_owner profile = t).
Proof.
  intros H. destruct oz_moved as (m & profile & A & B & O).
  pose proof (H toy xs_alice (fst za_end1) (snd za_end1) (xs_ea x44) moved_auth_r _ _ 401 moved_em m profile toy_curve_ok za_run1 oz_moved_starts
    oz_moved_carried A B) as X. rewrite O in X. discriminate X.
Qed.
Print Assumptions C69_refuted.
