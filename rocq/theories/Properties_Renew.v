(* Theorems about conversations that the users renew. *)
From Verif Require Import Base Types Crypto ToyCrypto CryptoProofs Encoding KeyManager SpecData3 Data3Lemmas DAKE Protocol Session SpecSession SessionExamples SpecNet
  NetExamples Net4Examples SpecStart SpecRenew RenewProofs RenewExamples.
Local Open Scope N_scope.

(** * C88: a private conversation can be renewed at any moment, any number of times *)

(* OTRv3.  However often the users have renewed their conversation and whatever they said in between, the clients
   are in the same encrypted session, and every message that arrives is shown as it was entered, or refused for
   both to see.  If either user now asks for another key exchange, both are told that a session has started, and are
   in the same encrypted session. *)
Theorem C88_v3 : forall C da db l, dh_group_ok C -> renewed3 C da db l ->
  connected (li_a l) (li_b l) /\
  (forall h l', net_step C (de_tag da) (de_tag db) l h l' -> shown_or_refused da db h) /\
  (forall y : exchange C (li_a l) (li_b l), honest3 C y -> connected (x_sa2 y) (x_sb3 y) /\ told3 y da db) /\
  (preferred db V3 -> forall y : exchange C (li_b l) (li_a l), honest3 C y -> connected (x_sa2 y) (x_sb3 y) /\ told3 y db da).
Proof. exact renewable3. Qed.
Print Assumptions C88_v3.

(* OTRv4: likewise if the user asks whose client has answered a query message so far, and the other client has not.
   Missing: every other request. *)
Theorem C88_v4_partial : forall C da db l, renewed4 C da db l ->
  connected (li_a l) (li_b l) /\
  (forall h l', net_step C (de_tag da) (de_tag db) l h l' -> shown_or_refused da db h) /\
  (preferred db V4 -> can_answer (li_a l) -> forall y : exchange C (li_b l) (li_a l),
     honest4 C db da (x_e0 y) (x_e1 y) (x_e2 y) -> connected (x_sa2 y) (x_sb3 y) /\ told4 y db da).
Proof. exact renewable4. Qed.
Print Assumptions C88_v4_partial.

(* OTRv4: a request of the user who asked in the beginning never has any effect.  The other client reports an error
   to its own user; nothing is sent back, nobody learns of a new session, and the old one stays in use. *)
Theorem C88_v4_deaf : forall C da db l (y : exchange C (li_a l) (li_b l)), renewed4 C da db l ->
  x_r1 y = [Err IncorrectState] /\ x_p1 y = [] /\ x_sa2 y = li_a l /\ x_sb3 y = li_b l /\
  x_r2 y ++ x_r3 y ++ x_r4 y ++ x_r5 y = [].
Proof. exact renewed4_deaf. Qed.
Print Assumptions C88_v4_deaf.

(* so the property as it stands for OTRv3 is false in OTRv4 *)
Theorem C88_v4_refuted : ~ (forall C da db l, renewed4 C da db l ->
  forall y : exchange C (li_a l) (li_b l), honest4 C da db (x_e0 y) (x_e1 y) (x_e2 y) -> told4 y da db).
Proof.
  intros H. destruct (H toy xs_alice xs_bob nf_l2 ro_before rp4_x rp4_honest) as [K _]. discriminate K.
Qed.
Print Assumptions C88_v4_refuted.

(* After "hi" and "yo" Bob asks for a new key exchange, and after that Alice does. *)
Example C88_ex3 : dh_group_ok toy /\ renewed3 toy ns_alice ns_bob ns_l4 /\ preferred ns_bob V3 /\ honest3 toy rn_x /\
  renewed3 toy ns_alice ns_bob rn_l5 /\ honest3 toy rm_x.
Proof.
  split; [exact toy_group_ok|]. split; [exact rn_before|]. split; [exact rn_prefers|]. split; [exact rn_honest|].
  split; [exact rn_after|exact rm_honest].
Qed.
(* After Alice's "hi" Bob asks for a new key exchange. *)
Example C88_ex4 : renewed4 toy xs_alice xs_bob nf_l2 /\ preferred xs_bob V4 /\ can_answer (li_a nf_l2) /\
  honest4 toy xs_bob xs_alice (x_e0 ro_x) (x_e1 ro_x) (x_e2 ro_x).
Proof. split; [exact ro_before|]. split; [exact ro_prefers|]. split; [exact ro_can|exact ro_honest]. Qed.
