(* How the data messages of a conversation are numbered. *)
From Verif Require Import Base Messages SpecData3.
Local Open Scope N_scope.

(* The first element of the list is as [first] says, and each further one follows its predecessor as [next] says. *)
Definition numbered {A} (first : A -> Prop) (next : A -> A -> Prop) (l : list A) : Prop :=
  (forall a l', l = a :: l' -> first a) /\ (forall l1 a b l2, l = l1 ++ a :: b :: l2 -> next a b).

(* OTRv3: the counter is 1 for the first message under a pair of keys, and then goes up by one. *)
Definition first3 (m : data3) : Prop := ctr3 m = 1.
Definition next3 (a b : data3) : Prop :=
  (d3_sender_keyid b = d3_sender_keyid a /\ d3_receiver_keyid b = d3_receiver_keyid a /\ ctr3 b = ctr3 a + 1) \/
  (d3_sender_keyid a <= d3_sender_keyid b /\ d3_receiver_keyid a <= d3_receiver_keyid b /\
   d3_sender_keyid a + d3_receiver_keyid a < d3_sender_keyid b + d3_receiver_keyid b /\ ctr3 b = 1).

(* OTRv4: the messages of a ratchet are numbered 0, 1, 2, ...; each carries the number of messages of the sender's previous
   ratchet. *)
Definition first4 (m : data4) : Prop := d4_j m = 0 /\ d4_pn m = 0.
Definition next4 (a b : data4) : Prop :=
  (d4_i b = d4_i a /\ d4_j b = d4_j a + 1 /\ d4_pn b = d4_pn a) \/
  (d4_i a < d4_i b /\ d4_j b = 0 /\ d4_pn b = d4_j a + 1).
