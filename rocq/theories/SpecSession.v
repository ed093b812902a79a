(* Vocabulary for the properties of sessions: the calls of the API, histories of a session, and what a
   received payload carries. *)
From Verif Require Import Base Types Crypto Encoding Messages Fragment KeyManager DataV3 Ratchet DataV4
  AKE DAKE SMP SMP4 Protocol Session Base64 SpecWire SpecData3 SpecData4.
Local Open Scope N_scope.

(** ** The API of a session *)

Inductive op : Type :=
| OpReceive (payload : bytes)
| OpSend (tag : N) (content : bytes)
| OpInitiate (v : version) (tag : N)
| OpEnd (tag : N)
| OpQuery
| OpStartSmp (tag : N) (secret question : bytes)
| OpAbortSmp (tag : N)
| OpExpire (timeout : N).

Inductive answer : Type :=
| AnMessage (m : user_message)
| AnPayloads (l : list bytes)
| AnDone.
Definition res_map {A B} (f : A -> B) (r : res A) : res B :=
  match r with Ok a => Ok (f a) | Err x => Err x | Panic => Panic end.
Definition answering {A} (f : A -> answer) (x : effect session A) : effect session answer :=
  let '(s, out, r) := x in (s, out, res_map f r).

(* One call.  [es] supplies the host's answers, random values and clock; expire handles several
   instances, each with its own. *)
Definition call (C : Crypto) (es : N -> env) (s : session) (o : op) : effect session answer :=
  match o with
  | OpReceive p => answering AnMessage (receive C (es 0) s p)
  | OpSend t content => answering AnPayloads (send C (es t) s t content)
  | OpInitiate v t => answering AnMessage (initiate C (es t) s v t)
  | OpEnd t => answering AnMessage (end_session C (es t) s t)
  | OpQuery => answering (fun _ => AnDone) (ses_query s)
  | OpStartSmp t secret question => answering (fun _ => AnDone) (start_smp C (es t) s t secret question)
  | OpAbortSmp t => answering (fun _ => AnDone) (abort_smp C (es t) s t)
  | OpExpire timeout => answering (fun _ => AnDone) (expire C es s timeout)
  end.

(* What happened in one call: the call, the messages injected, the answer. *)
Record event : Type := mkEvent { ev_op : op; ev_injected : list bytes; ev_result : res answer }.

(* [run C s0 h s]: from s0 the calls of h, oldest first, lead to s.  Host, network and random values
   are arbitrary.  A crash ends the run. *)
Inductive run (C : Crypto) (s0 : session) : list event -> session -> Prop :=
| run_nil : run C s0 [] s0
| run_call h s es o s' out r :
    run C s0 h s -> call C es s o = (s', out, r) -> r <> Panic ->
    run C s0 (h ++ [mkEvent o out r]) s'.
(* from the creation of the session *)
Definition history (C : Crypto) (d : details) (h : list event) (s : session) : Prop :=
  run C (session_new d) h s.

(** ** Instances *)

Definition legal_tag (t : N) : Prop := t = 0 \/ 256 <= t.
(* the protocol state of the correspondent's client t; an unknown client is in plaintext *)
Definition state_of (s : session) (t : N) : pstate :=
  match get_inst t (se_instances s) with Some i => in_state i | None => PPlain end.
Definition status_of (s : session) (t : N) : protocol_status := p_status (state_of s t).

Definition allowed (d : details) (v : version) : Prop :=
  match v with V3 => allow_v3 (de_policy d) = true | V4 => allow_v4 (de_policy d) = true | _ => False end.
Definition enabled (d : details) : Prop := allowed d V3 \/ allowed d V4.

(** ** Messages on the network *)

(* the complete message b becomes available when the payload arrives: the payload itself, or the
   message that the fragment completes *)
Definition completes (s : session) (payload b : bytes) : Prop :=
  (match_fragment payload = false /\ b = payload)
  \/ exists f a, match_fragment payload = true /\ parse_fragment payload = Ok (Some f) /\
       verify_fragment f = true /\
       (fr_receiver f = 0 \/ fr_receiver f = de_tag (se_details s)) /\
       assemble (in_assembler (entry (fr_sender f) (se_instances s))) f = (a, AsmOk b) /\
       match_fragment b = false.

(* the encoded message em becomes available *)
Definition carries (C : Crypto) (s : session) (payload : bytes) (em : encoded_message) : Prop :=
  exists b, completes s payload b /\ parse C b = Ok (MsgEncoded em).

(* em goes out as the messages ps: in one piece, or in fragments *)
Definition transported (d : details) (e : env) (receiver : N) (v : version) (m : encoded_type)
    (ps : list bytes) : Prop :=
  exists b, encode_message v (de_tag d) receiver m = Ok b /\
    ((length b <= ev_message_size e)%nat /\ ps = [b]
     \/ (ev_message_size e < length b)%nat /\
        exists fs, fragment_content (ev_message_size e) v (de_tag d) receiver (ev_fragment e) b = Ok fs /\
          Forall2 (fun f p => encode_fragment f = Ok p) fs ps).

(* the user's text as it goes into a message: NUL bytes are dropped *)
Definition without_nul (b : bytes) : bytes := filter (fun x => negb (byte_eqb x x00)) b.

(* the text of the OTR error reply, "?OTR Error:unreadable message" *)
Definition UNREADABLE_REPLY : bytes := OTR_ERROR_PREFIX ++ UNREADABLE_TEXT.
(* the query message offering one version, "?OTRv4? ..." *)
Definition query_message (v : version) : bytes :=
  OTR_QUERY_PREFIX ++ [match v with V3 => x33 | _ => x34 end] ++ [x3f; x20] ++ OTR_USE_INFORMATION_MESSAGE.
(* the version to offer: the newest allowed one *)
Definition preferred (d : details) (v : version) : Prop :=
  (allowed d V4 /\ v = V4) \/ (~ allowed d V4 /\ allowed d V3 /\ v = V3).

(** ** Protected text *)

(* The OTRv3 data message for a text: the text occurs only as input of the cipher, everything else is
   given by the arguments. *)
Definition sealed3 (C : Crypto) (our their : N) (key mac_key : bytes) (own_id peer_id next : N)
    (ctr revealed text : bytes) : encoded_type :=
  let m enc mac := mkData3 false own_id peer_id next ctr enc mac revealed in
  let enc := aes_crypt C key (ctr ++ repeat x00 8) text in
  MData (m enc (hmac_sha1 C mac_key (encode_authenticator_data our their (m enc [])))).
(* the same for OTRv4 *)
Definition sealed4 (C : Crypto) (our their : N) (key mac_key : bytes) (pn i j : N) (pt : point)
    (dh : option N) (revealed text : bytes) : encoded_type :=
  let m enc mac := mkData4 false pn i j pt dh enc mac revealed in
  let enc := chacha_crypt C key text in
  MData4 (m enc (kdf2 C 64 USAGE_AUTHENTICATOR mac_key (encode_authenticator_data4 our their (m enc [])))).

(* no text, then one record: type 1 (disconnected), length 0 *)
Definition DISCONNECT : bytes := [x00; x00; x01; x00; x00].
(* m is the message with which a client in state st ends the session: an ordinary data message with the
   ignore-unreadable flag and the disconnect record; in OTRv4 it also reveals all used MAC keys *)
Definition goodbye (C : Crypto) (rnd : send_rnd) (st : pstate) (v : version) (m : encoded_type) : Prop :=
  match st with
  | PEnc3 our their k _ =>
      v = V3 /\ exists m3 k', m = MData m3 /\ encrypt3 C our their k true DISCONNECT = Ok (m3, k')
  | PEnc4 our their d _ =>
      v = V4 /\ exists m4 d', m = MData4 m4 /\
        encrypt4 C our their (fst (dr_collect_reveals d)) true DISCONNECT (snd (dr_collect_reveals d)) rnd
        = Ok (m4, d')
  | _ => False
  end.

(* an encrypted OTRv4 session whose last ratchet rotation is at least [timeout] ago *)
Definition idle (now timeout : N) (st : pstate) : Prop :=
  exists our their d smp, st = PEnc4 our their d smp /\ timeout <= now - dr_created d.

(* the whitespace tag offering version v *)
Definition whitespace_tag (v : version) : bytes :=
  WHITESPACE_PREFIX ++ (match v with V3 => WHITESPACE_TAG_OTRV3 | _ => WHITESPACE_TAG_OTRV4 end).
(* the event is the sending of a message with a whitespace tag in front of the user's text *)
Definition sent_tagged (ev : event) : Prop :=
  exists t c v, ev_op ev = OpSend t c /\ ev_result ev = Ok (AnPayloads [whitespace_tag v ++ without_nul c]).
(* the text was delivered as ordinary unencrypted text *)
Definition got_plaintext (ev : event) : Prop :=
  exists p b, ev_op ev = OpReceive p /\ ev_result ev = Ok (AnMessage (UMPlaintext b)).

(* the event started an encrypted session with client t *)
Definition started_with (t : N) (ev : event) : Prop := ev_result ev = Ok (AnMessage (UMSessionStarted t)).
Definition ended (t : N) (ev : event) : Prop := ev_op ev = OpEnd t.

(** ** Reading a message *)

(* A client in state st reads the data message em as the given bytes: the message verifies under the keys
   of the session, for the tags in its header, and the bytes are its decryption under the same keys. *)
Definition opens (C : Crypto) (st : pstate) (em : encoded_message) (text : bytes) : Prop :=
  match st, em_message em with
  | PEnc3 _ _ k _, MData m =>
      em_version em = V3 /\
      exists x y enc_key mac_key,
        own_key3 k (d3_receiver_keyid m) x /\ peer_key3 k (d3_sender_keyid m) y /\
        recv_keys3 C x y enc_key mac_key /\
        d3_authenticator m = hmac_sha1 C mac_key (encode_authenticator_data (em_sender em) (em_receiver em) m) /\
        any_nonzero (d3_authenticator m) = true /\
        text = aes_crypt C enc_key (d3_ctr m ++ repeat x00 8) (d3_encrypted m)
  | PEnc4 _ _ d _, MData4 m =>
      em_version em = V4 /\
      exists ck, reads_with4 C d m ck /\
        d4_authenticator m = kdf2 C 64 USAGE_AUTHENTICATOR (mac_key4 C ck)
          (encode_authenticator_data4 (em_sender em) (em_receiver em) m) /\
        any_nonzero (d4_authenticator m) = true /\
        text = chacha_crypt C (firstn 32 (enc_key4 C ck)) (d4_encrypted m)
  | _, _ => False
  end.

(* em is a data message of its version, its keys are valid, and whether it is flagged ignore-unreadable *)
Definition data_message (C : Crypto) (em : encoded_message) (ignore : bool) : Prop :=
  (exists m, em_version em = V3 /\ em_message em = MData m /\ d3_ignore_unreadable m = ignore)
  \/ (exists m, em_version em = V4 /\ em_message em = MData4 m /\ d4_ignore_unreadable m = ignore /\
        data4_validate C m = Ok tt).
(* em is meant for this client: a legal sender, and the own tag, a legal one, as receiver *)
Definition addressed (d : details) (em : encoded_message) : Prop :=
  256 <= em_sender em /\ em_receiver em = de_tag d /\ 256 <= de_tag d.

(* the records of the Socialist Millionaire Protocol: types 2 to 7 in OTRv3, 2 to 6 in OTRv4 *)
Definition smp_record (v : version) (t : tlv) : bool :=
  (2 <=? tlv_type t) && (tlv_type t <=? match v with V3 => 7 | _ => 6 end).
(* The plaintext of a data message says a text and records: the text up to the first NUL byte, then the records. *)
Definition says (plaintext text : bytes) (records : list tlv) : Prop :=
  ~ In x00 text /\ Forall tlv_range records /\
  ((plaintext = text /\ records = []) \/ plaintext = text ++ x00 :: concat (map tlv_bytes records)).
(* a text and, apart from padding (type 0), these records; no disconnect record (type 1) *)
Definition shows (plaintext text : bytes) (tlvs : list tlv) : Prop :=
  exists records, says plaintext text records /\ Forall (fun t => tlv_type t <> 1) records /\
    tlvs = filter (fun t => negb (tlv_type t =? 0)) records.
(* a text and a disconnect record *)
Definition farewell (plaintext text : bytes) : Prop :=
  exists records, says plaintext text records /\ Exists (fun t => tlv_type t = 1) records.
(* r is the answer to the user about a message from client t with the given plaintext *)
Definition told (v : version) (t : N) (plaintext : bytes) (r : res user_message) : Prop :=
  (exists text tlvs, shows plaintext text tlvs /\
     if existsb (smp_record v) tlvs
     then r = Ok UMNone \/ r = Ok (UMSmpSucceeded t) \/ r = Ok (UMSmpFailed t) \/ exists x, r = Err x
     else r = Ok (UMConfidential t text tlvs))
  \/ (exists text, farewell plaintext text /\ r = Ok (UMSessionFinished t text))
  \/ ((forall text records, ~ says plaintext text records) /\ r = Err IncompleteMessage).

(* v is the version to use with a peer that offers vs: OTRv4 if both sides allow it, otherwise OTRv3 *)
Definition chosen (d : details) (vs : list version) (v : version) : Prop :=
  (In V4 vs /\ allowed d V4 /\ v = V4)
  \/ (~ (In V4 vs /\ allowed d V4) /\ In V3 vs /\ allowed d V3 /\ v = V3).
(* the payload offers the versions vs: a query message, or a whitespace tag while the policy is to react to it *)
Definition offers (C : Crypto) (s : session) (payload : bytes) (vs : list version) : Prop :=
  exists b, completes s payload b /\
    (parse C b = Ok (MsgQuery vs)
     \/ (exists c, parse C b = Ok (MsgTagged vs c)) /\ whitespace_start_ake (de_policy (se_details s)) = true).
(* the protocol states of all clients are the same *)
Definition same_states (s s' : session) : Prop := forall u, state_of s' u = state_of s u.

(** ** Addresses on the network *)

(* the text of an encoded message with the given header, whatever follows the header *)
Definition with_header (v : version) (kind : byte) (sender receiver : N) (rest : bytes) : bytes :=
  OTR_ENCODED_PREFIX
  ++ b64_encode (be_bytes 2 (match v with V3 => 3 | _ => 4 end) ++ [kind] ++ be_bytes 4 sender ++ be_bytes 4 receiver ++ rest)
  ++ OTR_ENCODED_SUFFIX.
(* the text of a fragment: "?OTR|identifier|sender|receiver,part,total,payload," *)
Definition fragment_text (f : fragment) : bytes :=
  OTR_FRAGMENT_V3_PREFIX
  ++ match fr_version f with V4 => hex_digits 8 (be_val (fr_identifier f)) ++ [BAR] | _ => [] end
  ++ hex_digits 8 (fr_sender f) ++ [BAR] ++ hex_digits 8 (fr_receiver f) ++ [COMMA]
  ++ dec_digits 5 (fr_part f) ++ [COMMA] ++ dec_digits 5 (fr_total f) ++ [COMMA]
  ++ fr_payload f ++ OTR_FRAGMENT_SUFFIX.
(* tags with which no message is meant for a client with the own tag [own] *)
Definition illegal (t : N) : Prop := 0 < t < 256.
Definition misaddressed (own sender receiver : N) : Prop :=
  illegal sender \/ illegal receiver \/ (receiver <> 0 /\ receiver <> own).
