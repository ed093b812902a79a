(* Vocabulary for following the keys of one private conversation through the calls of a session: what a call
   did with data messages, and what that means for the key manager (OTRv3) or the double ratchet (OTRv4). *)
From Verif Require Import Base Types Crypto Encoding Messages Fragment KeyManager DataV3 Ratchet DataV4
  AKE DAKE SMP SMP4 Protocol Session SpecData3 SpecData4 SpecSession SpecWire.
Local Open Scope N_scope.

(* What a session did with one data message of a conversation: the message carries the given bytes (Sends),
   or was decrypted to them (Reads). *)
Inductive did : Type :=
| Sends (m : encoded_type) (text : bytes)
| Reads (em : encoded_message) (text : bytes)
| Refuses (em : encoded_message).

(* the same, as an event of the OTRv3 keys and as an event of the OTRv4 keys *)
Definition is3 (x : did) (k : event3) : Prop :=
  match x, k with
  | Sends (MData m) text, Sent3 m' text' => m' = m /\ text' = text
  | Reads em text, Got3 m auth (Some text') =>
      em_message em = MData m /\ auth = encode_authenticator_data (em_sender em) (em_receiver em) m /\ text' = text
  | Refuses em, Got3 m auth None =>
      em_message em = MData m /\ auth = encode_authenticator_data (em_sender em) (em_receiver em) m
  | _, _ => False
  end.
Definition is4 (x : did) (k : event4) : Prop :=
  match x, k with
  | Sends (MData4 m) text, Sent4 m' text' => m' = m /\ text' = text
  | Reads em text, Took4 m auth text' _ =>
      em_message em = MData4 m /\ auth = encode_authenticator_data4 (em_sender em) (em_receiver em) m /\ text' = text
  | Refuses em, Refused4 m auth =>
      em_message em = MData4 m /\ auth = encode_authenticator_data4 (em_sender em) (em_receiver em) m
  | _, _ => False
  end.

(* The list of events is the whole use made of the keys of the conversation in state st since it began. *)
Definition keys_followed (C : Crypto) (d : details) (t : N) (g : list did) (st : pstate) : Prop :=
  match st with
  | PEnc3 our their k _ =>
      our = de_tag d /\ their = t /\ exists l, Forall2 is3 g l /\ begun3 C our their l k
  | PEnc4 our their k _ =>
      our = de_tag d /\ their = t /\ exists l, Forall2 is4 g l /\ history4 C our their l k
  | _ => False
  end.

(* The list of events is the use made of the keys of the conversation between the states st and st'. *)
Definition steps (C : Crypto) (st : pstate) (g : list did) (st' : pstate) : Prop :=
  match st, st' with
  | PEnc3 our their k _, PEnc3 our' their' k' _ =>
      our' = our /\ their' = their /\ exists l, Forall2 is3 g l /\ run3 C our their k l k'
  | PEnc4 our their k _, PEnc4 our' their' k' _ =>
      our' = our /\ their' = their /\ exists l, Forall2 is4 g l /\ run4 C our their k l k'
  | _, _ => False
  end.

(* the protocol version that a data message belongs to *)
Definition data_version (m : encoded_type) : version := match m with MData _ => V3 | _ => V4 end.
(* an empty text and one record of the Socialist Millionaire Protocol *)
Definition only_smp (v : version) (plaintext : bytes) : Prop :=
  exists r, smp_record v r = true /\ tlv_range r /\ plaintext = x00 :: tlv_bytes r.

(* [did_in C d t ev g]: what the call did with the conversation with client t, judging by the call, the
   messages injected and the answer.  The text b is the payload, or what fragments were put together to. *)
Definition did_in (C : Crypto) (d : details) (t : N) (ev : event) (g : list did) : Prop :=
  match ev_op ev with
  | OpSend u c =>
      match ev_result ev with
      | Ok (AnPayloads ps) =>
          (u <> t /\ g = []) \/ (u = t /\ exists m v e, g = [Sends m (without_nul c)] /\ transported d e t v m ps)
      | _ => g = []
      end
  | OpReceive p =>
      (g = [] \/ exists em, em_sender em = t /\
         (exists b, parse C b = Ok (MsgEncoded em) /\ (match_fragment p = false -> b = p)) /\
         (g = [Refuses em] \/ exists text, g = [Reads em text] \/
            exists m r v e, g = [Reads em text; Sends m r] /\ only_smp (data_version m) r /\ transported d e t v m (ev_injected ev))) /\
      (forall c x, ev_result ev = Ok (AnMessage (UMConfidential t c x)) ->
         exists em text, g = [Reads em text] /\ shows text c x /\ existsb (smp_record (data_version (em_message em))) x = false)
  | OpStartSmp u _ _ | OpAbortSmp u =>
      g = [] \/ (u = t /\ exists m r v e, g = [Sends m r] /\ only_smp (data_version m) r /\ transported d e t v m (ev_injected ev))
  | _ => g = []
  end.

(* ev is the latest start of a private conversation with t in the history, and h the calls since *)
Definition latest_start (t : N) (history : list event) (ev : event) (h : list event) : Prop :=
  (exists h0, history = h0 ++ ev :: h) /\ started_with t ev /\ Forall (fun e => ~ started_with t e) h.
