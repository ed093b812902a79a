(* Vocabulary for the recovery of a conversation that one of its two sides has lost, for instance because
   its application was started again. *)
From Verif Require Import Base Types Crypto Encoding KeyManager SpecData3 Protocol Session SpecSession SpecNet.
Local Open Scope N_scope.

(* [s] is the session of account d, at some moment of a conversation with the client of account d' that the
   two began with a key exchange.  The session is that of the side which sent the query message or that of
   the side which answered it. *)
Definition converses3 (C : Crypto) (d d' : details) (s : session) : Prop :=
  (exists sa sb x hs l, start_net3 C d d' sa sb x /\
     net_run C (de_tag d) (de_tag d') (mkLink (x_sa2 x) (x_sb3 x) [] []) hs l /\ s = li_a l) \/
  (exists sa sb x hs l, start_net3 C d' d sa sb x /\
     net_run C (de_tag d') (de_tag d) (mkLink (x_sa2 x) (x_sb3 x) [] []) hs l /\ s = li_b l).
Definition converses4 (C : Crypto) (d d' : details) (s : session) : Prop :=
  (exists sa sb x hs l, start_net4 C d d' sa sb x /\
     net_run C (de_tag d) (de_tag d') (mkLink (x_sa2 x) (x_sb3 x) [] []) hs l /\ s = li_a l) \/
  (exists sa sb x hs l, start_net4 C d' d sa sb x /\
     net_run C (de_tag d') (de_tag d) (mkLink (x_sa2 x) (x_sb3 x) [] []) hs l /\ s = li_b l).

(* [n] is a session of account d' that is not in an encrypted conversation with client t, and not in the
   middle of anything with it.  A new session is one; it need not be new. *)
Definition forgotten (C : Crypto) (d' : details) (t : N) (n : session) : Prop :=
  (exists h, history C d' h n) /\ resting n t /\ status_of n t <> Encrypted.

(* The user of session s sends a text to client t', it arrives at session n, and all that n answers arrives
   at s: s and n become s' and n', n's user and s's user are told [at_n] and [at_s], and s sends [out]. *)
Definition speaks_to (C : Crypto) (t' : N) (text : bytes) (s n s' n' : session) (at_n at_s : list (res user_message))
    (out : list bytes) : Prop :=
  exists e1 e2 e3 s1 ps replies,
    send C e1 s t' text = (s1, [], Ok ps) /\ env_ok e1 /\ transportable ps /\
    receive_all C e2 n ps = (n', replies, at_n) /\ ~ In Panic at_n /\
    receive_all C e3 s1 replies = (s', out, at_s) /\ ~ In Panic at_s.
