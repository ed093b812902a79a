(* Property C82: the keys of data messages follow the documented schedule. *)
From Verif Require Import Base Types Crypto ToyCrypto Encoding Messages Protocol Session SpecCurve ToyGroup SpecSession SessionExamples SpecFollow
  NetExamples StartExamples FollowExamples SpecDeny DenyExamples SpecOrigin OriginExamples SpecSchedule ScheduleLemmas.
Local Open Scope N_scope.

(** * C82 Another client that follows the protocol can compute every key *)

(* OTRv3: a session has a private conversation with client t.  It began with a message em from t.  Take the secret keys of
   this session and the public keys of the peer in the order of their numbers: the first are those of the exchange, each
   message names the keys it is protected with, and announces the next key.  The session identifier, the encryption and the
   authenticator of every data message written or read since then are computed from these as SpecSchedule.v says, which
   mentions no part of the model's key management.  The peer's key of the exchange is in the range of proper keys. *)
Theorem C82_v3 : forall C d h s t, curve_ok C -> 0 < c_dh_g C -> history C d h s -> enabled d -> conversation_version s t = Some V3 ->
  exists h1 s1 p out h2 em gs ssid, h = h1 ++ mkEvent (OpReceive p) out (Ok (AnMessage (UMSessionStarted t))) :: h2 /\
    Forall (fun ev => ~ started_with t ev) h2 /\ history C d h1 s1 /\ carries C s1 p em /\ em_sender em = t /\ em_version em = V3 /\
    ses_ssid s t = Ok ssid /\ Forall2 (did_in C d t) h2 gs /\ schedule3 C (first_key (proper3 C)) d h1 t em ssid (concat gs).
Proof. intros C d h s t CO GP HI EN CV. exact (scheduled C d h s t V3 CO GP HI EN CV). Qed.
Print Assumptions C82_v3.

(* OTRv4: the same, with ratchets in place of key numbers.  The key of the exchange starts a chain of root keys; each ratchet
   mixes in a fresh ECDH secret, every third one a fresh D-H secret; the messages of a ratchet follow a chain.
   Every key of the peer is a proper one: of the group, of the right order and not neutral. *)
Theorem C82_v4 : forall C d h s t, curve_ok C -> 0 < c_dh_g C -> history C d h s -> enabled d -> conversation_version s t = Some V4 ->
  exists h1 s1 p out h2 em gs ssid, h = h1 ++ mkEvent (OpReceive p) out (Ok (AnMessage (UMSessionStarted t))) :: h2 /\
    Forall (fun ev => ~ started_with t ev) h2 /\ history C d h1 s1 /\ carries C s1 p em /\ em_sender em = t /\ em_version em = V4 /\
    ses_ssid s t = Ok ssid /\ Forall2 (did_in C d t) h2 gs /\ schedule4 C (proper4 C) d h1 t em ssid (concat gs).
Proof. intros C d h s t CO GP HI EN CV. exact (scheduled C d h s t V4 CO GP HI EN CV). Qed.
Print Assumptions C82_v4.

(* The same holds with the message that ends the conversation. *)
Theorem C82_v3_end : forall C d h s t e s' out' r, curve_ok C -> 0 < c_dh_g C -> history C d h s -> enabled d -> conversation_version s t = Some V3 ->
  end_session C e s t = (s', out', r) -> r <> Panic ->
  exists m h1 s1 p out h2 em gs ssid, transported d e t V3 m out' /\
    h = h1 ++ mkEvent (OpReceive p) out (Ok (AnMessage (UMSessionStarted t))) :: h2 /\
    Forall (fun ev => ~ started_with t ev) h2 /\ history C d h1 s1 /\ carries C s1 p em /\ em_sender em = t /\ em_version em = V3 /\
    ses_ssid s t = Ok ssid /\ Forall2 (did_in C d t) h2 gs /\ schedule3 C (first_key (proper3 C)) d h1 t em ssid (concat gs ++ [Sends m DISCONNECT]).
Proof. intros C d h s t e s' out' r CO GP HI EN CV. exact (scheduled_end C d h s t V3 e s' out' r CO GP HI EN CV). Qed.
Print Assumptions C82_v3_end.
Theorem C82_v4_end : forall C d h s t e s' out' r, curve_ok C -> 0 < c_dh_g C -> history C d h s -> enabled d -> conversation_version s t = Some V4 ->
  end_session C e s t = (s', out', r) -> r <> Panic ->
  exists m h1 s1 p out h2 em gs ssid, transported d e t V4 m out' /\
    h = h1 ++ mkEvent (OpReceive p) out (Ok (AnMessage (UMSessionStarted t))) :: h2 /\
    Forall (fun ev => ~ started_with t ev) h2 /\ history C d h1 s1 /\ carries C s1 p em /\ em_sender em = t /\ em_version em = V4 /\
    ses_ssid s t = Ok ssid /\ Forall2 (did_in C d t) h2 gs /\ schedule4 C (proper4 C) d h1 t em ssid (concat gs ++ [Sends m DISCONNECT]).
Proof. intros C d h s t e s' out' r CO GP HI EN CV. exact (scheduled_end C d h s t V4 e s' out' r CO GP HI EN CV). Qed.
Print Assumptions C82_v4_end.

(* Bob's conversations with Alice, in which both wrote: OTRv4, and OTRv3. *)
Example C82_ex : curve_ok toy /\ 0 < c_dh_g toy /\ enabled xs_bob /\
  history toy xs_bob (zb_h ++ fst dn_b) (snd dn_b) /\ conversation_version (snd dn_b) 301 = Some V4 /\
  history toy xs_bob (yb_h ++ fst dr_b) (snd dr_b) /\ conversation_version (snd dr_b) 301 = Some V3.
Proof.
  split; [exact toy_curve_ok|]. split; [reflexivity|]. split; [exact (proj2 xs_enabled)|]. split; [exact dn_run|].
  split; [vm_compute; reflexivity|]. split; [exact dr_run|]. vm_compute. reflexivity.
Qed.
(* Bob ends them. *)
Example C82_end_ex : snd (end_session toy (xs_eb x33 301) (snd dn_b) 301) = Ok (UMReset 301) /\
  snd (end_session toy (xs_eb x33 301) (snd dr_b) 301) = Ok (UMReset 301).
Proof. split; vm_compute; reflexivity. Qed.
