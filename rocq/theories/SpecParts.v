(* Vocabulary for Properties_Parts: messages that are sent in parts. *)
From Verif Require Import Base Types Crypto Encoding Messages Fragment Session SpecSession.
From Verif Require SpecWire SpecFragment.
Local Open Scope N_scope.

(* The same session apart from the parts of messages that wait for the rest, and apart from entries for clients of which
   nothing else is known: the same details, and for each client the same conversation and the same key exchanges. *)
Definition same_entry (i j : instance) : Prop :=
  in_receiver j = in_receiver i /\ in_state j = in_state i /\ in_ake j = in_ake i /\ in_dake j = in_dake i.
Definition same_but_parts (s1 s2 : session) : Prop :=
  se_details s2 = se_details s1 /\ se_tagged s2 = se_tagged s1 /\
  forall t, same_entry (entry t (se_instances s1)) (entry t (se_instances s2)).

(* the part of a message of version v that a payload is, if it is one from client t for the client of these details *)
Definition part_of (d : details) (v : version) (t : N) (payload : bytes) : option fragment :=
  if match_fragment payload then
    match parse_fragment payload with
    | Ok (Some f) =>
        if verify_fragment f && (fr_sender f =? t) && version_eqb (fr_version f) v && ((fr_receiver f =? 0) || (fr_receiver f =? de_tag d))
        then Some f else None
    | _ => None
    end
  else None.
(* all that were received, in the order of their arrival *)
Definition parts_from (d : details) (v : version) (t : N) (h : list event) : list fragment :=
  flat_map (fun ev => match ev_op ev with
                      | OpReceive p => match part_of d v t p with Some f => [f] | None => [] end
                      | _ => []
                      end) h.

(* The client sd sends the message m, whose text is p, to the client rc as these fragments; max is the largest payload of
   the transport, which must leave no more than 256000 bytes to each part. *)
Definition in_parts (v : version) (sd rc : N) (m : encoded_type) (p : bytes) (fs : list fragment) : Prop :=
  256 <= sd < 4294967296 /\ SpecWire.legal_tag rc /\ encode_message v sd rc m = Ok p /\ N.of_nat (length p) <= 104857600 /\
  exists max rnd, N.of_nat max <= 256000 + N.of_nat (SpecFragment.header_size v) /\ length rnd = 4%nat /\
    fragment_content max v sd rc rnd p = Ok fs.
(* the parts in the list that belong to another message than f does *)
Definition others (f : fragment) (l : list fragment) : list fragment :=
  filter (fun g => negb (bytes_eqb (fr_identifier g) (fr_identifier f))) l.
(* in the calls h no payload made a message from the client t available *)
Definition silent (C : Crypto) (t : N) (s0 : session) (h : list event) : Prop := forall h' ev h'' s p em,
  h = h' ++ ev :: h'' -> run C s0 h' s -> ev_op ev = OpReceive p -> carries C s p em -> em_sender em <> t.
(* The call can be made on both sessions: its client is listed in both or in neither; with expire, which goes through all
   clients, the same clients are listed in the same order; a payload makes the same message available. *)
Definition comparable (s1 s2 : session) (o : op) : Prop :=
  match o with
  | OpReceive p => exists b, completes s1 p b /\ completes s2 p b
  | OpSend t _ | OpEnd t | OpStartSmp t _ _ | OpAbortSmp t => ses_status s1 t = None <-> ses_status s2 t = None
  | OpExpire _ => map fst (se_instances s1) = map fst (se_instances s2)
  | OpInitiate _ _ | OpQuery => True
  end.
