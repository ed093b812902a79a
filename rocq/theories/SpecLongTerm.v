(* What a host's long-term private keys, and the user's answer to a question, are used for.
   Definitions only. *)
From Verif Require Import Base Types Crypto Encoding Messages Fragment DAKE SMP SMP4 Ratchet Protocol Session SpecSession.
Local Open Scope N_scope.

(* the same host, at the same time and with the same random values, except for the private part of the DSA key, the private
   part of the Ed448 key, and the random values that signatures are made with *)
Record same_but_private (e1 e2 : env) : Prop := mkSameButPrivate {
  sp_size : ev_message_size e1 = ev_message_size e2;
  sp_dsa : option_map dsa_pk (ev_dsa e1) = option_map dsa_pk (ev_dsa e2);
  sp_profile : ev_profile e1 = ev_profile e2;
  sp_public : ed_public (ev_identity e1) = ed_public (ev_identity e2);
  sp_answer : ev_answer e1 = ev_answer e2;
  sp_dh : ev_dh e1 = ev_dh e2; sp_r : ev_r e1 = ev_r e2;
  sp_km0 : ev_km0 e1 = ev_km0 e2; sp_km1 : ev_km1 e1 = ev_km1 e2; sp_ack : ev_ack e1 = ev_ack e2;
  sp_dake : ev_dake e1 = ev_dake e2; sp_send : ev_send e1 = ev_send e2;
  sp_smp : ev_smp e1 = ev_smp e2; sp_smp4 : ev_smp4 e1 = ev_smp4 e2;
  sp_fragment : ev_fragment e1 = ev_fragment e2 }.

(* the messages of a key exchange that are answered with a signature: DH Key and Reveal Signature of OTRv3, Identity and
   Auth-R of OTRv4 *)
Definition asks_signature (em : encoded_message) : Prop :=
  match em_version em, em_message em with
  | V3, (MDHKey _ | MRevealSig _) | V4, (MIdentity _ | MAuthR _) => True
  | _, _ => False
  end.
(* a call that makes no such message available *)
Definition unsigned (C : Crypto) (s : session) (o : op) : Prop :=
  forall p em, o = OpReceive p -> carries C s p em -> ~ asks_signature em.

(* the same in everything but what the user answers to questions *)
Record same_but_answer (e1 e2 : env) : Prop := mkSameButAnswer {
  sa_size : ev_message_size e1 = ev_message_size e2; sa_dsa : ev_dsa e1 = ev_dsa e2;
  sa_profile : ev_profile e1 = ev_profile e2; sa_identity : ev_identity e1 = ev_identity e2;
  sa_dh : ev_dh e1 = ev_dh e2; sa_r : ev_r e1 = ev_r e2; sa_nonce : ev_nonce e1 = ev_nonce e2;
  sa_km0 : ev_km0 e1 = ev_km0 e2; sa_km1 : ev_km1 e1 = ev_km1 e2; sa_ack : ev_ack e1 = ev_ack e2;
  sa_dake : ev_dake e1 = ev_dake e2; sa_ring : ev_ring e1 = ev_ring e2; sa_send : ev_send e1 = ev_send e2;
  sa_smp : ev_smp e1 = ev_smp e2; sa_smp4 : ev_smp4 e1 = ev_smp4 e2;
  sa_fragment : ev_fragment e1 = ev_fragment e2 }.
(* the message is a data message, and there is a private conversation of its version with its sender *)
Definition in_conversation (s : session) (em : encoded_message) : Prop :=
  match em_version em, em_message em with
  | V3, MData _ => exists our their k smp, state_of s (em_sender em) = PEnc3 our their k smp
  | V4, MData4 _ => exists our their dr smp, state_of s (em_sender em) = PEnc4 our their dr smp
  | _, _ => False
  end.
Definition unasked (C : Crypto) (s : session) (o : op) : Prop :=
  forall p em, o = OpReceive p -> carries C s p em -> ~ in_conversation s em.

(* several calls, one after the other: what each of them handed to the network and returned, and the session afterwards *)
Fixpoint play (C : Crypto) (l : list ((N -> env) * op)) (s : session) : list (list bytes * res answer) * session :=
  match l with
  | [] => ([], s)
  | (es, o) :: r =>
      let '(s1, out, x) := call C es s o in
      let '(xs, s2) := play C r s1 in ((out, x) :: xs, s2)
  end.
(* each of the calls satisfies P in the session it is made in *)
Fixpoint each (C : Crypto) (P : session -> op -> Prop) (l : list ((N -> env) * op)) (s : session) : Prop :=
  match l with
  | [] => True
  | (es, o) :: r => P s o /\ each C P r (fst (fst (call C es s o)))
  end.
