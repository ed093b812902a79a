(* Theorems about two sessions connected by a network, from the first query message to any later point of
   their conversation. *)
From Verif Require Import Base Types Crypto ToyCrypto SpecData3 Protocol Session SpecSession SessionExamples SpecNet NetLemmas NetExamples
  Data3Lemmas Net4Lemmas Net4Examples.
Local Open Scope N_scope.

(** * C55: the sessions of two users, end to end *)

(* OTRv3: the query leads to encrypted sessions on both sides, with the same session identifier (SSID); each
   user learns it with the message that completes the exchange, whatever the sizes of the fragments. *)
Theorem C55_v3_handshake : forall C da db sa sb x, start_net3 C da db sa sb x ->
  status_of (x_sa2 x) (de_tag db) = Encrypted /\ status_of (x_sb3 x) (de_tag da) = Encrypted /\
  (exists b, ses_ssid (x_sa2 x) (de_tag db) = Ok b /\ ses_ssid (x_sb3 x) (de_tag da) = Ok b) /\
  x_r1 x = [Ok UMNone] /\ x_r2 x = answered (length (x_p1 x)) (Ok UMNone) /\
  x_r3 x = answered (length (x_p2 x)) (Ok UMNone) /\
  x_r4 x = answered (length (x_p3 x)) (Ok (UMSessionStarted (de_tag db))) /\
  x_r5 x = answered (length (x_p4 x)) (Ok (UMSessionStarted (de_tag da))) /\ x_p5 x = [].
Proof. exact net3_handshake. Qed.
Print Assumptions C55_v3_handshake.

(* From then on, whatever is sent and lost, and whatever else the sessions do: a message that arrives is shown
   to the user exactly as it was entered (but for NUL bytes), or reported as unreadable to both users. *)
Theorem C55_v3_shown_or_refused : forall C da db sa sb x hs l, start_net3 C da db sa sb x -> dh_group_ok C ->
  net_run C (de_tag da) (de_tag db) (mkLink (x_sa2 x) (x_sb3 x) [] []) hs l ->
  (forall a text rs out, In (Arrives a text rs out) hs ->
     shown (if a then de_tag da else de_tag db) text rs out \/ refused (if a then de_tag da else de_tag db) rs out) /\
  status_of (li_a l) (de_tag db) = Encrypted /\ status_of (li_b l) (de_tag da) = Encrypted.
Proof. intros C da db sa sb x hs l S G R. destruct (net3_conversation C da db sa sb x hs l S G R) as (A & _ & B). auto. Qed.
Print Assumptions C55_v3_shown_or_refused.

(* When the users take turns, every message is shown. *)
Theorem C55_v3_turns : forall C da db sa sb x hs l b, start_net3 C da db sa sb x -> dh_group_ok C ->
  net_run C (de_tag da) (de_tag db) (mkLink (x_sa2 x) (x_sb3 x) [] []) hs l -> alternating b hs ->
  forall a text rs out, In (Arrives a text rs out) hs -> shown (if a then de_tag da else de_tag db) text rs out.
Proof. intros C da db sa sb x hs l b S G R. exact (proj1 (proj2 (net3_conversation C da db sa sb x hs l S G R)) b). Qed.
Print Assumptions C55_v3_turns.

Example C55_ex3 :
  start_net3 toy ns_alice ns_bob ns_a0 ns_b0 ns_x /\ dh_group_ok toy /\
  net_run toy 301 400 (mkLink (x_sa2 ns_x) (x_sb3 ns_x) [] []) ns_hs ns_l4 /\ alternating true ns_hs /\
  (1 < length ns_ps1)%nat.
Proof.
  split; [exact ns_start|]. split; [exact toy_group_ok|]. split; [exact ns_run|]. split; [exact ns_turns|].
  vm_compute. repeat constructor.
Qed.

(* OTRv4: likewise, with one message less. *)
Theorem C55_v4_handshake : forall C da db sa sb x, start_net4 C da db sa sb x ->
  status_of (x_sa2 x) (de_tag db) = Encrypted /\ status_of (x_sb3 x) (de_tag da) = Encrypted /\
  (exists b, ses_ssid (x_sa2 x) (de_tag db) = Ok b /\ ses_ssid (x_sb3 x) (de_tag da) = Ok b) /\
  x_r1 x = [Ok UMNone] /\ x_r2 x = answered (length (x_p1 x)) (Ok UMNone) /\
  x_r3 x = answered (length (x_p2 x)) (Ok (UMSessionStarted (de_tag da))) /\
  x_r4 x = answered (length (x_p3 x)) (Ok (UMSessionStarted (de_tag db))) /\ x_p4 x = [].
Proof. exact net4_handshake. Qed.
Print Assumptions C55_v4_handshake.

Theorem C55_v4_shown_or_refused : forall C da db sa sb x hs l, start_net4 C da db sa sb x ->
  net_run C (de_tag da) (de_tag db) (mkLink (x_sa2 x) (x_sb3 x) [] []) hs l ->
  (forall a text rs out, In (Arrives a text rs out) hs ->
     shown (if a then de_tag da else de_tag db) text rs out \/ refused (if a then de_tag da else de_tag db) rs out) /\
  status_of (li_a l) (de_tag db) = Encrypted /\ status_of (li_b l) (de_tag da) = Encrypted.
Proof. exact net4_conversation. Qed.
Print Assumptions C55_v4_shown_or_refused.

(* When one user speaks at a time, the next message is shown, unless it brings a fresh key that happens to be
   the sender's last one. *)
Theorem C55_v4_speaker : forall C da db sa sb x hs l a text l1 text' rs out l2, start_net4 C da db sa sb x ->
  net_run C (de_tag da) (de_tag db) (mkLink (x_sa2 x) (x_sb3 x) [] []) hs l ->
  speaking (de_tag da) (de_tag db) a hs ->
  net_step C (de_tag da) (de_tag db) l (Sends a text) l1 ->
  net_step C (de_tag da) (de_tag db) l1 (Arrives a text' rs out) l2 ->
  text' = text /\
  (shown (if a then de_tag da else de_tag db) text rs out \/
   refused (if a then de_tag da else de_tag db) rs out /\
   exists ps, (if a then li_ab l1 else li_ba l1) = [(ps, text)] /\
     repeats_key C (if a then li_b l1 else li_a l1) (if a then de_tag da else de_tag db) ps).
Proof. exact net4_next. Qed.
Print Assumptions C55_v4_speaker.

Example C55_ex4 :
  start_net4 toy xs_alice xs_bob xs_a0 xs_b0 nf_x /\
  net_run toy 301 400 (mkLink (x_sa2 nf_x) (x_sb3 nf_x) [] []) nf_hs nf_l2 /\ speaking 301 400 false nf_hs /\
  net_step toy 301 400 nf_l2 (Sends false nf_yo) nf_l3 /\
  net_step toy 301 400 nf_l3 (Arrives false nf_yo (snd nf_conv4) []) nf_l4 /\
  (1 < length (x_p2 nf_x))%nat.
Proof.
  split; [exact nf_start|]. split; [exact nf_run|]. split; [exact nf_speaking|]. split; [exact nf_sends|]. split; [exact nf_arrives|].
  vm_compute. repeat constructor.
Qed.
