(* src/session.rs: sessions with one correspondent, and the instances (clients) inside them.
   Everything the host supplies during one call, all random values and the clock are in [env]; what is
   handed to `host.inject` is returned as a list of messages, oldest first.  Logging is not modelled. *)
From Verif Require Import Base Types Crypto Encoding Messages Fragment KeyManager DataV3 Ratchet DataV4
  AKE DAKE SMP SMP4 Protocol.
Local Open Scope N_scope.

(* What the host answers (src/lib.rs:207-253 `Host`), the random values and the clock of one call. *)
Record env : Type := mkEnv {
  (* host *)
  ev_message_size : nat; ev_dsa : option dsa_keypair; ev_profile : bytes; ev_identity : eddsa_keypair;
  ev_answer : bytes -> option bytes;
  (* OTRv3: private key and AES key of an exchange, nonce of a DSA signature, private keys of new key
     pairs in the key manager *)
  ev_dh : N; ev_r : bytes; ev_nonce : bytes; ev_km0 : N; ev_km1 : N; ev_ack : N;
  (* OTRv4: keys of an exchange, ring signature, key pairs of a rotation and the clock *)
  ev_dake : dake_rnd; ev_ring : ring_rnd; ev_send : send_rnd;
  (* SMP, fragment identifier *)
  ev_smp : smp_rnd; ev_smp4 : smp4_rnd; ev_fragment : bytes }.
Definition ev_now (e : env) : N := sr_now (ev_send e).
Definition ev_dake_host (e : env) : dake_host := mkDakeHost (ev_profile e) (ev_identity e).
Definition ev_smp_host (e : env) : smp_host :=
  mkSmpHost (match ev_dsa e with Some k => Some (dsa_pk k) | None => None end) (ev_answer e).

(* src/lib.rs:84-108 `UserMessage` *)
Inductive user_message : Type :=
| UMNone
| UMPlaintext (b : bytes)
| UMWarningUnencrypted (b : bytes)
| UMError (b : bytes)
| UMReset (tag : N)
| UMSessionStarted (tag : N)
| UMConfidential (tag : N) (content : bytes) (tlvs : list tlv)
| UMSessionFinished (tag : N) (content : bytes)
| UMSmpSucceeded (tag : N)
| UMSmpFailed (tag : N).

(* src/session.rs:1106-1111 `AccountDetails`, and the address of the correspondent (135) *)
Record details : Type := mkDetails { de_policy : policy; de_tag : N; de_account : bytes; de_address : bytes }.

(* src/session.rs:630-640 `Instance`; host and account details are arguments of the functions *)
Record instance : Type := mkInstance {
  in_receiver : N; in_assembler : assembler; in_state : pstate; in_ake : ake_state; in_dake : dake_state }.
(* src/session.rs:648-664 `new` *)
Definition instance_new (receiver : N) : instance :=
  mkInstance receiver assembler_new pstate_new AkeNone DakeInitial.
Definition set_assembler (i : instance) (a : assembler) : instance :=
  mkInstance (in_receiver i) a (in_state i) (in_ake i) (in_dake i).
Definition set_state (i : instance) (s : pstate) : instance :=
  mkInstance (in_receiver i) (in_assembler i) s (in_ake i) (in_dake i).
Definition set_ake (i : instance) (a : ake_state) : instance :=
  mkInstance (in_receiver i) (in_assembler i) (in_state i) a (in_dake i).
Definition set_dake (i : instance) (d : dake_state) : instance :=
  mkInstance (in_receiver i) (in_assembler i) (in_state i) (in_ake i) d.
(* src/session.rs:666-668 *)
Definition in_status (i : instance) : protocol_status := p_status (in_state i).

(* What a method of `&mut self` does: the object afterwards, the injected messages, the result.  After
   a panic the object is of no interest; here it is the one before. *)
Definition effect (S A : Type) : Type := (S * list bytes * res A)%type.

(* src/lib.rs:157 *)
Definition SUPPORTED_VERSIONS : list version := [V3; V4].

(* src/session.rs:1114-1122 `select_version` *)
Definition select_version (p : policy) (vs : list version) : option version :=
  if contains_version V4 vs && allow_v4 p then Some V4
  else if contains_version V3 vs && allow_v3 p then Some V3
  else None.
(* src/session.rs:1125-1133 `filter_versions` *)
Definition filter_versions (p : policy) (vs : list version) : list version :=
  if contains_version V4 vs && allow_v4 p then [V4]
  else if contains_version V3 vs && allow_v3 p then [V3]
  else [].

Section WithCrypto.
Context (C : Crypto).

Fixpoint map_res {A B} (f : A -> res B) (l : list A) : res (list B) :=
  match l with
  | [] => Ok []
  | x :: r => let* a := f x in let* b := map_res f r in Ok (a :: b)
  end.

(* src/session.rs:1012-1024 `prepare_payloads`; also 1090-1102 in `inject`: the message as it is, or
   its fragments *)
Definition payloads (d : details) (e : env) (receiver : N) (v : version) (content : bytes)
  : res (list bytes) :=
  if Nat.leb (length content) (ev_message_size e) then Ok [content]
  else
    let* fs := fragment_content (ev_message_size e) v (de_tag d) receiver (ev_fragment e) content in
    map_res encode_fragment fs.

(* src/session.rs:1082-1103 `inject`: the messages handed to the host *)
Definition inject (d : details) (e : env) (i : instance) (v : version) (receiver : N) (m : encoded_type)
  : res (list bytes) :=
  if negb ((negb (receiver =? 0) && (in_receiver i =? 0)) || (in_receiver i =? receiver)) then Panic
  else
    let* content := encode_message v (de_tag d) (in_receiver i) m in
    payloads d e (in_receiver i) v content.

(* a computation followed by injecting a message *)
Definition injecting {A} (before after : instance) (r : res (list bytes)) (a : A) : effect instance A :=
  match r with
  | Ok out => (after, out, Ok a)
  | Err x => (after, [], Err x)
  | Panic => (before, [], Panic)
  end.

(* src/session.rs:670-679 `expire` *)
Definition inst_expire (d : details) (e : env) (i : instance) (timeout : N) : effect instance unit :=
  match p_expire C (in_state i) timeout (ev_send e) with
  | Ok None => (i, [], Ok tt)
  | Ok (Some m) =>
      injecting i (set_state i PFin) (inject d e i (p_version (in_state i)) (in_receiver i) m) tt
  | Err x => (i, [], Err x)
  | Panic => (i, [], Panic)
  end.

(* src/session.rs:681-689 `initiate` *)
Definition inst_initiate (d : details) (e : env) (i : instance) (v : version) : effect instance user_message :=
  match v with
  | V3 =>
      match ake_initiate C (ev_dh e) (ev_r e) with
      | Ok (st, m) => injecting i (set_ake i st) (inject d e i V3 (in_receiver i) (MDHCommit m)) UMNone
      | Err x => (i, [], Err x)
      | Panic => (i, [], Panic)
      end
  | V4 =>
      match dake_initiate C (ev_dake_host e) (ev_dake e) (in_dake i) with
      | (st, Ok m) => injecting i (set_dake i st) (inject d e i V4 (in_receiver i) (MIdentity m)) UMNone
      | (st, Err x) => (set_dake i st, [], Err x)
      | (_, Panic) => (i, [], Panic)
      end
  | _ => (i, [], Panic)
  end.

(* src/session.rs:691-694, 702-705 *)
Definition transfer_ake_context (i : instance) : res ake_state :=
  if in_receiver i =? 0 then ake_transfer (in_ake i) else Panic.
Definition transfer_dake_context (i : instance) : res dake_state :=
  if in_receiver i =? 0 then dake_transfer (in_dake i) else Panic.
(* src/session.rs:696-700, 707-711 *)
Definition adopt_ake_context (i : instance) (a : ake_state) : res instance :=
  if in_receiver i =? 0 then Panic else Ok (set_ake i a).
Definition adopt_dake_context (i : instance) (a : dake_state) : res instance :=
  if in_receiver i =? 0 then Panic else Ok (set_dake i a).

(* b"unreadable message" *)
Definition UNREADABLE_TEXT : bytes := bstr
  [117; 110; 114; 101; 97; 100; 97; 98; 108; 101; 32; 109; 101; 115; 115; 97; 103; 101].

(* src/session.rs:810-830, 905-926: the errors of a data message *)
Definition data_error (i : instance) (ignore_unreadable : bool) (x : otr_error)
  : effect instance user_message :=
  match x with
  | UnreadableMessage _ =>
      match serialize_message (MsgError UNREADABLE_TEXT) with
      | Ok b => (i, [b], if ignore_unreadable then Ok UMNone else Err (UnreadableMessage (in_receiver i)))
      | Err x => (i, [], Err x)
      | Panic => (i, [], Panic)
      end
  | _ => (i, [], Err x)
  end.

(* src/session.rs:792-799, 887-894 and elsewhere: `write_u8(0).write_tlv(..)`, then `prepare` with the
   ignore-unreadable flag *)
Definition prepare_tlv (e : env) (s : pstate) (t : tlv) : res (pstate * encoded_type) :=
  let* w := write_tlv t in p_prepare C s true (x00 :: w) (ev_send e).

(* src/session.rs:801-806, 896-901: what the user is told after an SMP record was handled *)
Definition smp_report (r : N) (st : smp_status) : res user_message :=
  match st with
  | SmpInProgress => Ok UMNone
  | SmpCompleted => Ok (UMSmpSucceeded r)
  | SmpAbortedFor _ => Ok (UMSmpFailed r)
  | SmpInitial => Panic
  end.
Definition smp4_report (r : N) (st : smp4_status) : res user_message :=
  match st with
  | S4InProgress => Ok UMNone
  | S4Completed => Ok (UMSmpSucceeded r)
  | S4Aborted _ => Ok (UMSmpFailed r)
  | S4Initial => Panic
  end.

(* The SMP record among the TLVs of a message; several are refused (src/session.rs:775-781, 870-876) *)
Definition single_smp (is_smp : tlv -> bool) (tlvs : list tlv) : res tlv :=
  match filter is_smp tlvs with
  | [t] => Ok t
  | _ => Err ProtocolViolation
  end.

(* the reply to an SMP record, if any, then the report *)
Definition smp_finish (d : details) (e : env) (i0 i : instance) (sender : N) (reply : res (option tlv))
    (report : res user_message) : effect instance user_message :=
  match reply with
  | Ok None => match report with Panic => (i0, [], Panic) | _ => (i, [], report) end
  | Ok (Some t) =>
      match prepare_tlv e (in_state i) t with
      | Ok (s, m) =>
          let i' := set_state i s in
          match inject d e i' (p_version s) sender m, report with
          | Ok out, Panic => (i0, [], Panic)
          | Ok out, _ => (i', out, report)
          | Err x, _ => (i', [], Err x)
          | Panic, _ => (i0, [], Panic)
          end
      | Err x => (i, [], Err x)
      | Panic => (i0, [], Panic)
      end
  | Err x => (i, [], Err x)
  | Panic => (i0, [], Panic)
  end.

(* src/session.rs:758-831: an OTRv3 data message *)
Definition inst_data3 (d : details) (e : env) (i : instance) (sender receiver : N) (m : data3)
  : effect instance user_message :=
  let auth := encode_authenticator_data sender receiver m in
  let '(s, r) := p_handle3 C (in_state i) m auth (ev_ack e) in
  let i1 := set_state i s in
  match r with
  | Ok (Confidential content tlvs) =>
      if existsb is_smp3_tlv tlvs then
        match single_smp is_smp3_tlv tlvs with
        | Ok t =>
            match s with
            | PEnc3 our their k smp =>
                let '(smp', reply) := smp_handle C (ev_smp_host e) (ev_smp e) smp t in
                smp_finish d e i (set_state i1 (PEnc3 our their k smp')) sender reply
                  (smp_report (in_receiver i) (sm_status smp'))
            | _ => (i1, [], Err ProtocolViolation)
            end
        | Err x => (i1, [], Err x)
        | Panic => (i, [], Panic)
        end
      else (i1, [], Ok (UMConfidential (in_receiver i) content tlvs))
  | Ok (ConfidentialFinished content) => (i1, [], Ok (UMSessionFinished (in_receiver i) content))
  | Err x => data_error i1 (d3_ignore_unreadable m) x
  | Panic => (i, [], Panic)
  end.

(* src/session.rs:852-927: an OTRv4 data message *)
Definition inst_data4 (d : details) (e : env) (i : instance) (sender receiver : N) (m : data4)
  : effect instance user_message :=
  match data4_validate C m with
  | Err x => (i, [], Err x)
  | Panic => (i, [], Panic)
  | Ok _ =>
      let auth := encode_authenticator_data4 sender receiver m in
      let '(s, r) := p_handle4 C (in_state i) m auth (ev_now e) in
      let i1 := set_state i s in
      match r with
      | Ok (Confidential content tlvs) =>
          if existsb is_smp4_tlv tlvs then
            match single_smp is_smp4_tlv tlvs with
            | Ok t =>
                match s with
                | PEnc4 our their dr smp =>
                    let '(smp', reply) := smp4_handle C (ev_answer e) (ev_smp4 e) smp t in
                    smp_finish d e i (set_state i1 (PEnc4 our their dr smp')) sender reply
                      (smp4_report (in_receiver i) (s4_status smp'))
                | _ => (i1, [], Err ProtocolViolation)
                end
            | Err x => (i1, [], Err x)
            | Panic => (i, [], Panic)
            end
          else (i1, [], Ok (UMConfidential (in_receiver i) content tlvs))
      | Ok (ConfidentialFinished content) => (i1, [], Ok (UMSessionFinished (in_receiver i) content))
      | Err x => data_error i1 (d4_ignore_unreadable m) x
      | Panic => (i, [], Panic)
      end
  end.

(* src/session.rs:743-745, 753-755, 840-842, 847-849: enter the encrypted state and check the status *)
Definition secure (d : details) (e : env) (i : instance) (their : N) (m : material) : res instance :=
  let* s := p_secure C (in_state i) (de_tag d) their m (ev_km0 e) (ev_km1 e) in
  if status_eqb (p_status s) Encrypted then Ok (set_state i s) else Panic.

(* src/session.rs:715-931 `handle` *)
Definition inst_handle (d : details) (e : env) (i0 : instance) (em : encoded_message)
  : effect instance user_message :=
  let sender := em_sender em in
  let i := match em_version em with
           | V3 => set_assembler i0 (assembler_cleanup_v3 (in_assembler i0))
           | _ => i0
           end in
  let started := UMSessionStarted (in_receiver i) in
  match em_version em, em_message em with
  | V3, MDHCommit m =>
      match ake_handle_dhcommit C (in_ake i) m (ev_dh e) with
      | (st, Ok r) =>
          injecting i (set_ake i st)
            (inject d e i V3 sender (match r with ReplyCommit c => MDHCommit c | ReplyKey k => MDHKey k end))
            UMNone
      | (st, Err x) => (set_ake i st, [], Err AuthenticationError)
      | (_, Panic) => (i0, [], Panic)
      end
  | V3, MDHKey m =>
      match ake_handle_dhkey C (ev_dsa e) (ev_nonce e) (in_ake i) m with
      | (st, Ok r) => injecting i (set_ake i st) (inject d e i V3 sender (MRevealSig r)) UMNone
      | (st, Err x) => (set_ake i st, [], Err AuthenticationError)
      | (_, Panic) => (i0, [], Panic)
      end
  | V3, MRevealSig m =>
      match ake_handle_reveal C (ev_dsa e) (ev_nonce e) (in_ake i) m with
      | (st, Ok (mat, r)) =>
          match secure d e (set_ake i st) sender (MatAKE mat) with
          | Ok i' => injecting i i' (inject d e i V3 sender (MSignature r)) started
          | Err x => (i, [], Err x)
          | Panic => (i0, [], Panic)
          end
      | (st, Err x) => (set_ake i st, [], Err AuthenticationError)
      | (_, Panic) => (i0, [], Panic)
      end
  | V3, MSignature m =>
      match ake_handle_signature C (in_ake i) m with
      | (st, Ok mat) =>
          match secure d e (set_ake i st) sender (MatAKE mat) with
          | Ok i' => (i', [], Ok started)
          | Err x => (i, [], Err x)
          | Panic => (i0, [], Panic)
          end
      | (st, Err x) => (set_ake i st, [], Err AuthenticationError)
      | (_, Panic) => (i0, [], Panic)
      end
  | V3, MData m => inst_data3 d e i sender (em_receiver em) m
  | V4, MIdentity m =>
      match dake_handle_identity C (ev_dake_host e) (ev_dake e) (ev_ring e) (in_dake i) m
              (de_account d) (de_address d) with
      | (st, Ok r) =>
          injecting i (set_dake i st)
            (inject d e i V4 sender (match r with ReplyIdentity m => MIdentity m | ReplyAuthR m => MAuthR m end))
            UMNone
      | (st, Err x) => (set_dake i st, [], Err x)
      | (_, Panic) => (i0, [], Panic)
      end
  | V4, MAuthR m =>
      match dake_handle_auth_r C (ev_dake_host e) (ev_ring e) (sr_ecdh (ev_send e)) (sr_dh (ev_send e))
              (ev_now e) (in_dake i) m (de_account d) (de_address d) with
      | (st, Ok (mat, r)) =>
          match inject d e i V4 sender (MAuthI r) with
          | Ok out =>
              match secure d e (set_dake i st) (in_receiver i) (MatDAKE mat) with
              | Ok i' => (i', out, Ok started)
              | Err x => (i, out, Err x)
              | Panic => (i0, [], Panic)
              end
          | Err x => (i, [], Err x)
          | Panic => (i0, [], Panic)
          end
      | (st, Err x) => (set_dake i st, [], Err x)
      | (_, Panic) => (i0, [], Panic)
      end
  | V4, MAuthI m =>
      match dake_handle_auth_i C (ev_now e) (in_dake i) m (de_account d) (de_address d) with
      | (st, Ok mat) =>
          match secure d e (set_dake i st) (in_receiver i) (MatDAKE mat) with
          | Ok i' => (i', [], Ok started)
          | Err x => (i, [], Err x)
          | Panic => (i0, [], Panic)
          end
      | (st, Err x) => (set_dake i st, [], Err x)
      | (_, Panic) => (i0, [], Panic)
      end
  | V4, MData4 m => inst_data4 d e i sender (em_receiver em) m
  | _, MUnencoded _ => (i0, [], Panic)
  | _, _ => (i, [], Err ProtocolViolation)
  end.

(* src/session.rs:933-946 `reset` *)
Definition inst_reset (d : details) (e : env) (i : instance) : effect instance user_message :=
  match p_finish C (in_state i) (ev_send e) with
  | Ok abortmsg =>
      let i' := set_state i PPlain in
      if status_eqb (in_status i) Plaintext
      then match abortmsg with None => (i', [], Ok UMNone) | Some _ => (i, [], Panic) end
      else
        match abortmsg with
        | Some m =>
            injecting i i' (inject d e i (p_version (in_state i)) (in_receiver i) m) (UMReset (in_receiver i))
        | None => (i', [], Ok (UMReset (in_receiver i)))
        end
  | Err x => (i, [], Err x)
  | Panic => (i, [], Panic)
  end.

(* src/session.rs:948-1010 `send`; the flag is the session's `whitespace_tagged`.  The result holds the
   new flag and the messages for the transport.  Nothing is injected. *)
Definition inst_send (d : details) (e : env) (i : instance) (tagged : bool) (plaintext : bytes)
  : instance * bool * res (list bytes) :=
  match p_prepare C (in_state i) false (drop_by_value plaintext x00) (ev_send e) with
  | Ok (s, MUnencoded msg) =>
      if negb (status_eqb (p_status s) Plaintext) then (i, tagged, Panic)
      else
        let versions := filter_versions (de_policy d) SUPPORTED_VERSIONS in
        if send_whitespace_tag (de_policy d) && negb tagged && negb (Nat.eqb (length versions) 0)
        then (set_state i s, true,
              let* b := serialize_message (MsgTagged versions msg) in Ok [b])
        else (set_state i s, tagged, let* b := serialize_message (MsgPlaintext msg) in Ok [b])
  | Ok (s, ((MData _ | MData4 _) as m)) =>
      (set_state i s, tagged,
       let* content := encode_message (p_version s) (de_tag d) (in_receiver i) m in
       payloads d e (in_receiver i) (p_version s) content)
  | Ok (s, _) => (i, tagged, Panic)   (* `prepare` returns no message of a key exchange *)
  | Err x => (i, tagged, Err x)
  | Panic => (i, tagged, Panic)
  end.

(* src/session.rs:1026-1049 `start_smp` *)
Definition inst_start_smp (d : details) (e : env) (i : instance) (secret question : bytes)
  : effect instance unit :=
  let go s' (t : res tlv) :=
    match t with
    | Ok t =>
        match prepare_tlv e s' t with
        | Ok (s, m) => injecting i (set_state i s) (inject d e i (p_version (in_state i)) (in_receiver i) m) tt
        | Err x => (set_state i s', [], Err x)
        | Panic => (i, [], Panic)
        end
    | Err x => (set_state i s', [], Err x)
    | Panic => (i, [], Panic)
    end in
  match in_state i with
  | PEnc3 our their k smp =>
      let '(smp', t) := smp_initiate C (ev_smp_host e) (ev_smp e) smp secret question in
      go (PEnc3 our their k smp') t
  | PEnc4 our their dr smp =>
      let '(smp', t) := smp4_initiate C (ev_smp4 e) smp secret question in
      go (PEnc4 our their dr smp') t
  | _ => (i, [], Err IncorrectState)
  end.

(* src/session.rs:1051-1059 `ssid` *)
Definition inst_ssid (i : instance) : res bytes :=
  match in_state i with
  | PEnc3 _ _ _ smp => Ok (sm_ssid smp)
  | PEnc4 _ _ _ smp => Ok (s4_ssid smp)
  | _ => Err IncorrectState
  end.

(* src/session.rs:1061-1080 `abort_smp`; `prepare` is unwrapped *)
Definition inst_abort_smp (d : details) (e : env) (i : instance) : effect instance unit :=
  let go s' t :=
    match prepare_tlv e s' t with
    | Ok (s, m) => injecting i (set_state i s) (inject d e i (p_version s) (in_receiver i) m) tt
    | _ => (i, [], Panic)
    end in
  match in_state i with
  | PEnc3 our their k smp => let '(smp', t) := smp_abort smp in go (PEnc3 our their k smp') t
  | PEnc4 our their dr smp => let '(smp', t) := smp4_abort smp in go (PEnc4 our their dr smp') t
  | _ => (i, [], Err IncorrectState)
  end.

(** ** Sessions *)

(* src/session.rs:131-147 `Session`.  The hash map of instances is an association list with distinct
   keys; the iteration order of the code's map is unspecified, here it is the order of creation. *)
Definition instances : Type := list (N * instance).
Record session : Type := mkSession { se_details : details; se_instances : instances; se_tagged : bool }.

Fixpoint get_inst (t : N) (l : instances) : option instance :=
  match l with
  | [] => None
  | (k, i) :: r => if k =? t then Some i else get_inst t r
  end.
Fixpoint set_inst (t : N) (i : instance) (l : instances) : instances :=
  match l with
  | [] => [(t, i)]
  | (k, j) :: r => if k =? t then (k, i) :: r else (k, j) :: set_inst t i r
  end.
(* `entry(tag).or_insert_with(..)` *)
Definition entry (t : N) (l : instances) : instance :=
  match get_inst t l with Some i => i | None => instance_new t end.
Definition with_instances (s : session) (l : instances) : session :=
  mkSession (se_details s) l (se_tagged s).
Definition put (s : session) (t : N) (i : instance) : session := with_instances s (set_inst t i (se_instances s)).

(* src/session.rs:151-169 `new` *)
Definition session_new (d : details) : session := mkSession d [(0, instance_new 0)] false.

(* src/session.rs:176-185 `instances` *)
Definition ses_instances (s : session) : list N :=
  filter (fun t => negb (t =? 0)) (map fst (se_instances s)).
(* src/session.rs:200-202 `status` *)
Definition ses_status (s : session) (t : N) : option protocol_status :=
  match get_inst t (se_instances s) with Some i => Some (in_status i) | None => None end.
(* src/session.rs:543-548 `ssid` *)
Definition ses_ssid (s : session) (t : N) : res bytes :=
  match get_inst t (se_instances s) with Some i => inst_ssid i | None => Err (UnknownInstance t) end.

Definition otr_disabled (p : policy) : bool := negb (allow_v3 p) && negb (allow_v4 p).

(* src/session.rs:557-567 `has_sessions`.  The code's `any` stops at the first private session and may
   so skip the assertions about the rest; here every entry is checked. *)
Definition has_sessions (s : session) : res bool :=
  if forallb (fun '(k, i) => (k =? in_receiver i) && (negb (k =? 0) || status_eqb (in_status i) Plaintext))
       (se_instances s)
  then Ok (existsb (fun '(_, i) => status_eqb (in_status i) Encrypted || status_eqb (in_status i) Finished)
             (se_instances s))
  else Panic.

(* src/session.rs:589-599 `query` *)
Definition query (s : session) : res (list bytes) :=
  match filter_versions (de_policy (se_details s)) SUPPORTED_VERSIONS with
  | [] => Err UserError
  | vs => let* b := serialize_message (MsgQuery vs) in Ok [b]
  end.

(* run a method of the instance with the given tag, creating it if needed *)
Definition on_entry {A} (s : session) (t : N) (f : instance -> effect instance A) : effect session A :=
  match f (entry t (se_instances s)) with
  | (_, _, Panic) => (s, [], Panic)
  | (i, out, r) => (put s t i, out, r)
  end.
(* the same for an existing instance *)
Definition on_instance {A} (s : session) (t : N) (f : instance -> effect instance A) : effect session A :=
  match get_inst t (se_instances s) with
  | None => (s, [], Err (UnknownInstance t))
  | Some i =>
      match f i with
      | (_, _, Panic) => (s, [], Panic)
      | (i', out, r) => (put s t i', out, r)
      end
  end.

(* src/session.rs:518-534 `initiate` *)
Definition initiate (e : env) (s : session) (v : version) (receiver : N) : effect session user_message :=
  on_entry s receiver (fun i => inst_initiate (se_details s) e i v).

(* src/session.rs:423-457 `verify_encoded_message_header` *)
Definition verify_header (d : details) (em : encoded_message) : res unit :=
  match em_version em with
  | VNone => Err ProtocolViolation
  | VUnsupported v => Err (UnsupportedVersion v)
  | V3 | V4 =>
      let* _ := tag_verify (em_sender em) in
      if em_sender em =? 0 then Err ProtocolViolation
      else
        let* _ := tag_verify (em_receiver em) in
        if (em_receiver em =? 0)
           && negb (match em_message em with MDHCommit _ | MIdentity _ => true | _ => false end)
        then Err ProtocolViolation
        else if negb (em_receiver em =? 0) && negb (em_receiver em =? de_tag d)
        then Err MessageForOtherInstance
        else Ok tt
  end.

(* src/session.rs:284-291, 299-303: how received text is delivered *)
Definition deliver_text (s : session) (out : list bytes) (content : bytes) : effect session user_message :=
  match has_sessions s with
  | Ok private =>
      (s, out, Ok (if private || require_encryption (de_policy (se_details s))
                   then UMWarningUnencrypted content else UMPlaintext content))
  | Err x => (s, out, Err x)
  | Panic => (s, [], Panic)
  end.

(* src/session.rs:313-419: an encoded message *)
Definition receive_encoded (e : env) (s : session) (em : encoded_message) : effect session user_message :=
  let d := se_details s in
  let zero := get_inst 0 (se_instances s) in
  if em_sender em =? 0 then (s, [], Ok UMNone)
  else
    match verify_header d em with
    | Err x => (s, [], Err x)
    | Panic => (s, [], Panic)
    | Ok _ =>
        if (version_eqb (em_version em) V3 && negb (allow_v3 (de_policy d)))
           || (version_eqb (em_version em) V4 && negb (allow_v4 (de_policy d)))
        then (s, [], Ok UMNone)
        else
          let handle i := inst_handle d e i em in
          match em_version em, em_message em with
          | V3, MDHKey _ =>
              match zero with
              | None => (s, [], Panic)
              | Some z =>
                  match transfer_ake_context z with
                  | Panic => (s, [], Panic)
                  | Ok a =>
                      on_entry s (em_sender em) (fun i =>
                        match adopt_ake_context i a with Ok i => handle i | _ => (i, [], Panic) end)
                  | Err _ => on_entry s (em_sender em) handle
                  end
              end
          | V4, MAuthR _ =>
              match zero with
              | None => (s, [], Panic)
              | Some z =>
                  match transfer_dake_context z with
                  | Panic => (s, [], Panic)
                  | Ok a =>
                      on_entry s (em_sender em) (fun i =>
                        match adopt_dake_context i a with Ok i => handle i | _ => (i, [], Panic) end)
                  | Err _ => on_entry s (em_sender em) handle
                  end
              end
          | _, _ => on_entry s (em_sender em) handle
          end
    end.

(* src/session.rs:276-420: a complete message *)
Definition receive_message (e : env) (s : session) (payload : bytes) : effect session user_message :=
  let p := de_policy (se_details s) in
  match parse C payload with
  | Err x => (s, [], Err x)
  | Panic => (s, [], Panic)
  | Ok (MsgError error) =>
      if error_start_ake p then
        match query s with
        | Ok out => (s, out, Ok (UMError error))
        | Err x => (s, [], Err x)
        | Panic => (s, [], Panic)
        end
      else (s, [], Ok (UMError error))
  | Ok (MsgPlaintext content) => deliver_text s [] content
  | Ok (MsgTagged versions content) =>
      match (if whitespace_start_ake p then select_version p versions else None) with
      | Some v =>
          match initiate e s v 0 with
          | (s', out, Ok _) => deliver_text s' out content
          | (s', out, Err x) => (s', out, Err x)
          | (_, _, Panic) => (s, [], Panic)
          end
      | None => deliver_text s [] content
      end
  | Ok (MsgQuery versions) =>
      match select_version p versions with
      | Some v =>
          match initiate e s v 0 with
          | (s', out, Ok _) => (s', out, Ok UMNone)
          | r => r
          end
      | None => (s, [], Ok UMNone)
      end
  | Ok (MsgEncoded em) => receive_encoded e s em
  end.

(* src/session.rs:222-275 `receive`.  The recursive call for an assembled message goes to the part after
   line 275, because an assembled fragment is refused. *)
Definition receive (e : env) (s : session) (payload : bytes) : effect session user_message :=
  let d := se_details s in
  if otr_disabled (de_policy d) then (s, [], Ok (UMPlaintext payload))
  else if match_fragment payload then
    match parse_fragment payload with
    | Err x => (s, [], Err x)
    | Panic => (s, [], Panic)
    | Ok None => (s, [], Ok UMNone)
    | Ok (Some f) =>
        if negb (verify_fragment f) then (s, [], Err ProtocolViolation)
        else if negb (fr_receiver f =? 0) && negb (fr_receiver f =? de_tag d)
        then (s, [], Err MessageForOtherInstance)
        else
          let i := entry (fr_sender f) (se_instances s) in
          let '(a, r) := assemble (in_assembler i) f in
          let s' := put s (fr_sender f) (set_assembler i a) in
          match r with
          | AsmOk assembled =>
              if match_fragment assembled then (s', [], Err ProtocolViolation)
              else match receive_message e s' assembled with
                   | (_, _, Panic) => (s, [], Panic)
                   | x => x
                   end
          | AsmErr (IncompleteResult | UnexpectedFragment) => (s', [], Ok UMNone)
          | AsmErr InvalidData => (s', [], Err ProtocolViolation)
          | AsmPanic => (s, [], Panic)
          end
    end
  else receive_message e s payload.

(* src/session.rs:477-511 `send` *)
Definition send (e : env) (s : session) (t : N) (content : bytes) : effect session (list bytes) :=
  let d := se_details s in
  if otr_disabled (de_policy d) then (s, [], Ok [content])
  else
    match get_inst t (se_instances s) with
    | None => (s, [], Err (UnknownInstance t))
    | Some i =>
        if require_encryption (de_policy d) && status_eqb (in_status i) Plaintext then
          match query s with
          | Ok out => (s, out, Err PolicyRestriction)
          | Err x => (s, [], Err x)
          | Panic => (s, [], Panic)
          end
        else
          match inst_send d e i (se_tagged s) content with
          | (_, _, Panic) => (s, [], Panic)
          | (i', tagged, r) => (mkSession d (set_inst t i' (se_instances s)) tagged, [], r)
          end
    end.

(* src/session.rs:579-581 `end` *)
Definition end_session (e : env) (s : session) (t : N) : effect session user_message :=
  on_instance s t (fun i => inst_reset (se_details s) e i).
(* src/session.rs:589-599 `query` as an operation *)
Definition ses_query (s : session) : effect session unit :=
  match query s with
  | Ok out => (s, out, Ok tt)
  | Err x => (s, [], Err x)
  | Panic => (s, [], Panic)
  end.
(* src/session.rs:609-616 `start_smp`, 624-626 `abort_smp` *)
Definition start_smp (e : env) (s : session) (t : N) (secret question : bytes) : effect session unit :=
  on_instance s t (fun i => inst_start_smp (se_details s) e i secret question).
Definition abort_smp (e : env) (s : session) (t : N) : effect session unit :=
  on_instance s t (fun i => inst_abort_smp (se_details s) e i).

(* src/session.rs:191-197 `expire`: every instance, each with its own random values *)
Fixpoint expire_all (d : details) (es : N -> env) (timeout : N) (l : instances)
  : instances * list bytes * res unit :=
  match l with
  | [] => ([], [], Ok tt)
  | (t, i) :: r =>
      match inst_expire d (es t) i timeout with
      | (i', out, Ok _) =>
          let '(r', out', x) := expire_all d es timeout r in ((t, i') :: r', out ++ out', x)
      | (i', out, x) => ((t, i') :: r, out, x)
      end
  end.
Definition expire (es : N -> env) (s : session) (timeout : N) : effect session unit :=
  match expire_all (se_details s) es timeout (se_instances s) with
  | (_, _, Panic) => (s, [], Panic)
  | (l, out, r) => (with_instances s l, out, r)
  end.

End WithCrypto.
