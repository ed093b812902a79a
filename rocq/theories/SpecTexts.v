(* Vocabulary for what both users of one private conversation see when the network is in the hands of an
   attacker: each session gets any calls, with any messages, in any order.  What is assumed of the attacker is
   one thing only: it cannot make a client accept a data message that the other client did not write. *)
From Verif Require Import Base Types Crypto Encoding Messages Fragment KeyManager DataV3 Ratchet DataV4
  AKE DAKE SMP SMP4 Protocol Session SpecSession SpecFollow.
Local Open Scope N_scope.

(* the same data message: keys, position and ciphertext (the flags, the authenticator and the revealed MAC keys
   may differ) *)
Definition same_data3 (m m' : data3) : Prop :=
  d3_sender_keyid m = d3_sender_keyid m' /\ d3_receiver_keyid m = d3_receiver_keyid m' /\ d3_dh_y m = d3_dh_y m' /\
  d3_ctr m = d3_ctr m' /\ d3_encrypted m = d3_encrypted m'.
Definition same_data4 (m m' : data4) : Prop :=
  d4_i m = d4_i m' /\ d4_j m = d4_j m' /\ d4_ecdh m = d4_ecdh m' /\ d4_dh m = d4_dh m' /\ d4_encrypted m = d4_encrypted m'.
Definition same_data (m m' : encoded_type) : Prop :=
  match m, m' with
  | MData a, MData b => same_data3 a b
  | MData4 a, MData4 b => same_data4 a b
  | _, _ => False
  end.

(* gs: what each call of h, from session s on, did with the data messages of the conversation with client t.
   The conversation stays the same one: the use of the keys leads from their state in s to that in s'. *)
Definition account (C : Crypto) (t : N) (s : session) (h : list event) (s' : session) (gs : list (list did)) : Prop :=
  run C s h s' /\ Forall2 (did_in C (se_details s) t) h gs /\ steps C (state_of s t) (concat gs) (state_of s' t).

(* No forgeries: whatever the receiver accepts, the sender wrote. *)
Definition genuine (sender receiver : list did) : Prop :=
  forall em text, In (Reads em text) receiver ->
  exists m text', In (Sends m text') sender /\ same_data m (em_message em).
(* Whatever the receiver reads in a message is what the sender wrote in it. *)
Definition read_as_written (sender receiver : list did) : Prop :=
  forall em text, In (Reads em text) receiver ->
  (exists m, In (Sends m text) sender /\ same_data m (em_message em)) /\
  (forall m text', In (Sends m text') sender -> same_data m (em_message em) -> text' = text).

(* What a user was shown of client t, and what a user successfully sent to client t, in order. *)
Fixpoint texts_shown (t : N) (h : list event) : list bytes :=
  match h with
  | [] => []
  | ev :: h =>
      match ev_op ev, ev_result ev with
      | OpReceive _, Ok (AnMessage (UMConfidential u c _)) => if u =? t then c :: texts_shown t h else texts_shown t h
      | _, _ => texts_shown t h
      end
  end.
Fixpoint texts_sent (t : N) (h : list event) : list bytes :=
  match h with
  | [] => []
  | ev :: h =>
      match ev_op ev, ev_result ev with
      | OpSend u c, Ok (AnPayloads _) => if u =? t then without_nul c :: texts_sent t h else texts_sent t h
      | _, _ => texts_sent t h
      end
  end.

(* no text of client t came with records for the user's application *)
Definition bare_texts (t : N) (h : list event) : Prop :=
  forall ev p c x, In ev h -> ev_op ev = OpReceive p -> ev_result ev = Ok (AnMessage (UMConfidential t c x)) -> x = [].

(* some elements of a list, in the same order *)
Inductive selection {A} : list A -> list A -> Prop :=
| sel_nil l : selection [] l
| sel_take x l l' : selection l l' -> selection (x :: l) (x :: l')
| sel_skip x l l' : selection l l' -> selection l (x :: l').
