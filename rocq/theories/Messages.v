(* src/messages.rs, with the message structures of src/ake.rs and src/dake.rs. *)
From Verif Require Import Base Types Crypto Encoding Base64 ClientProfile.
Local Open Scope N_scope.

(** ** Message structures *)

(* src/ake.rs:509-512 *)
Record dh_commit : Type := mkDHCommit { dc_gx_encrypted : bytes; dc_gx_hashed : bytes }.
(* src/ake.rs:535-537 *)
Record dh_key_msg : Type := mkDHKey { dk_gy : N }.
(* src/ake.rs:556-560 *)
Record reveal_sig : Type := mkRevealSig {
  rv_key : bytes; rv_signature_encrypted : bytes; rv_signature_mac : bytes }.
(* src/ake.rs:594-597 *)
Record sig_msg : Type := mkSigMsg { sg_signature_encrypted : bytes; sg_signature_mac : bytes }.
(* src/messages.rs:288-306.  flags: the only defined bit is IGNORE_UNREADABLE (encoding.rs:14-23). *)
Record data3 : Type := mkData3 {
  d3_ignore_unreadable : bool; d3_sender_keyid : N; d3_receiver_keyid : N; d3_dh_y : N;
  d3_ctr : bytes; d3_encrypted : bytes; d3_authenticator : bytes; d3_revealed : bytes }.
(* src/dake.rs:529-536 *)
Record identity_msg : Type := mkIdentity {
  id_profile : profile_payload; id_y : point; id_b : N; id_ecdh0 : point; id_dh0 : N }.
(* src/dake.rs:577-585 *)
Record authr_msg : Type := mkAuthR {
  ar_profile : profile_payload; ar_x : point; ar_a : N; ar_sigma : ring_sig;
  ar_ecdh0 : point; ar_dh0 : N }.
(* src/dake.rs:629-632 *)
Record authi_msg : Type := mkAuthI { ai_sigma : ring_sig }.
(* src/messages.rs:347-357 *)
Record data4 : Type := mkData4 {
  d4_ignore_unreadable : bool; d4_pn : N; d4_i : N; d4_j : N; d4_ecdh : point; d4_dh : option N;
  d4_encrypted : bytes; d4_authenticator : bytes; d4_revealed : bytes }.

(* src/messages.rs:245-269 *)
Inductive encoded_type : Type :=
| MUnencoded (b : bytes)
| MDHCommit (m : dh_commit)
| MDHKey (m : dh_key_msg)
| MRevealSig (m : reveal_sig)
| MSignature (m : sig_msg)
| MData (m : data3)
| MIdentity (m : identity_msg)
| MAuthR (m : authr_msg)
| MAuthI (m : authi_msg)
| MData4 (m : data4).

(* src/messages.rs:200-206 *)
Record encoded_message : Type := mkEncoded {
  em_version : version; em_sender : N; em_receiver : N; em_message : encoded_type }.

(* src/messages.rs:192-198 *)
Inductive message_type : Type :=
| MsgError (b : bytes)
| MsgPlaintext (b : bytes)
| MsgTagged (vs : list version) (b : bytes)
| MsgQuery (vs : list version)
| MsgEncoded (m : encoded_message).

(** ** Constants *)

(* src/messages.rs:18 "An Off-The-Record conversation has been requested." *)
Definition OTR_USE_INFORMATION_MESSAGE : bytes := bstr
  [65;110;32;79;102;102;45;84;104;101;45;82;101;99;111;114;100;32;99;111;110;118;101;114;115;97;116;
   105;111;110;32;104;97;115;32;98;101;101;110;32;114;101;113;117;101;115;116;101;100;46].
(* src/messages.rs:20 "?OTR Error:" *)
Definition OTR_ERROR_PREFIX : bytes := [x3f; x4f; x54; x52; x20; x45; x72; x72; x6f; x72; x3a].
(* src/messages.rs:21 "?OTRv" *)
Definition OTR_QUERY_PREFIX : bytes := [x3f; x4f; x54; x52; x76].
(* src/messages.rs:22 "?OTR:" *)
Definition OTR_ENCODED_PREFIX : bytes := [x3f; x4f; x54; x52; x3a].
(* src/messages.rs:23 "." *)
Definition OTR_ENCODED_SUFFIX : bytes := [x2e].

(* src/messages.rs:25-34 *)
Definition OTR_DH_COMMIT_TYPE_CODE : byte := x02.
Definition OTR_DH_KEY_TYPE_CODE : byte := x0a.
Definition OTR_REVEAL_SIGNATURE_TYPE_CODE : byte := x11.
Definition OTR_SIGNATURE_TYPE_CODE : byte := x12.
Definition OTR_IDENTITY_TYPE_CODE : byte := x35.
Definition OTR_AUTHR_TYPE_CODE : byte := x36.
Definition OTR_AUTHI_TYPE_CODE : byte := x37.
Definition OTR_DATA_TYPE_CODE : byte := x03.

(* src/messages.rs:44-49; s = space, t = tab *)
Local Notation s_ := x20 (only parsing).
Local Notation t_ := x09 (only parsing).
Definition WHITESPACE_PREFIX : bytes :=
  [s_;t_;s_;s_;t_;t_;t_;t_;s_;t_;s_;t_;s_;t_;s_;s_].
Definition WHITESPACE_TAG_OTRV1 : bytes := [s_;t_;s_;t_;s_;s_;t_;s_].
Definition WHITESPACE_TAG_OTRV2 : bytes := [s_;s_;t_;t_;s_;s_;t_;s_].
Definition WHITESPACE_TAG_OTRV3 : bytes := [s_;s_;t_;t_;s_;s_;t_;t_].
Definition WHITESPACE_TAG_OTRV4 : bytes := [s_;s_;t_;t_;s_;t_;s_;s_].

(** ** Queries: the regular expression of src/messages.rs:36-39; a question mark, OTR, an optional
    question mark, an optional group (optional colon, v, digits), a question mark *)

Definition QMARK : byte := x3f.
(* ASCII digits only; the code's \d also accepts other Unicode decimal digits (see DESIGN.md) *)
Definition is_digit (b : byte) : bool := (48 <=? b2n b) && (b2n b <=? 57).
Fixpoint span_digits (l : bytes) : bytes * bytes :=
  match l with
  | b :: r => if is_digit b then let '(d, r') := span_digits r in (b :: d, r') else ([], l)
  | [] => ([], [])
  end.
Definition starts_qmark (l : bytes) : bool :=
  match l with b :: _ => byte_eqb b QMARK | [] => false end.

(* the group followed by a question mark, at the start of l: the captured text of group 1 *)
Definition match_versions (l : bytes) : option bytes :=
  let '(colon, l1) := match l with
                      | b :: r => if byte_eqb b x3a then ([x3a], r) else ([], l)
                      | [] => ([], [])
                      end in
  match l1 with
  | v :: r =>
      if byte_eqb v x76 then
        let '(d, r') := span_digits r in
        if starts_qmark r' then Some (colon ++ x76 :: d) else None
      else None
  | [] => None
  end.
(* the (greedy) optional group and a question mark *)
Definition match_group_qmark (l : bytes) : option (option bytes) :=
  match match_versions l with
  | Some g => Some (Some g)
  | None => if starts_qmark l then Some None else None
  end.
(* the whole pattern at the start of l: group 1 if it took part in the match *)
Definition match_query (l : bytes) : option (option bytes) :=
  if starts_with [x3f; x4f; x54; x52] l then
    let l := skipn 4 l in
    if starts_qmark l then
      match match_group_qmark (skipn 1 l) with
      | Some r => Some r
      | None => match_group_qmark l
      end
    else match_group_qmark l
  else None.
(* leftmost match *)
Fixpoint find_query (l : bytes) : option (option bytes) :=
  match match_query l with
  | Some r => Some r
  | None => match l with [] => None | _ :: r => find_query r end
  end.

(* src/messages.rs:137-162: map and filter over the captured bytes *)
Fixpoint query_versions (g : bytes) : list version :=
  match g with
  | [] => []
  | b :: r =>
      if byte_eqb b x33 then V3 :: query_versions r
      else if byte_eqb b x34 then V4 :: query_versions r
      else query_versions r
  end.

(** ** Whitespace tags: src/messages.rs:40-43, the prefix followed by any number of groups of eight
    blanks *)

Definition is_blank (b : byte) : bool := byte_eqb b x20 || byte_eqb b x09.
(* greedy repetition: the groups and the rest *)
Fixpoint take_groups (fuel : nat) (l : bytes) : list bytes * bytes :=
  match fuel with
  | O => ([], l)
  | S f =>
      let g := firstn 8 l in
      if Nat.eqb (length g) 8 && forallb is_blank g
      then let '(gs, r) := take_groups f (skipn 8 l) in (g :: gs, r)
      else ([], l)
  end.
(* leftmost match: text before, repetitions, text after *)
Fixpoint find_tag (l : bytes) : option (bytes * list bytes * bytes) :=
  if starts_with WHITESPACE_PREFIX l then
    let r := skipn 16 l in
    let '(gs, after) := take_groups (length r) r in Some ([], gs, after)
  else match l with
       | [] => None
       | b :: r =>
           match find_tag r with
           | Some (before, gs, after) => Some (b :: before, gs, after)
           | None => None
           end
       end.
(* `replace_all(data, "")`; each match removes at least 16 bytes *)
Fixpoint clean_tags (fuel : nat) (l : bytes) : bytes :=
  match fuel with
  | O => l
  | S f =>
      match find_tag l with
      | Some (before, _, after) => before ++ clean_tags f after
      | None => l
      end
  end.

(* src/messages.rs:176-190 `parse_whitespace_tags` *)
Fixpoint parse_whitespace_tags (fuel : nat) (data : bytes) : list version :=
  match fuel with
  | O => []
  | S f =>
      match data with
      | [] => []
      | _ =>
          let g := firstn 8 data in
          let rest := parse_whitespace_tags f (skipn 8 data) in
          if bytes_eqb g WHITESPACE_TAG_OTRV1 then VUnsupported 1 :: rest
          else if bytes_eqb g WHITESPACE_TAG_OTRV2 then VUnsupported 2 :: rest
          else if bytes_eqb g WHITESPACE_TAG_OTRV3 then V3 :: rest
          else if bytes_eqb g WHITESPACE_TAG_OTRV4 then V4 :: rest
          else rest
      end
  end.

(* src/messages.rs:127-174 `parse_plain_message`; a missing capture group panics.
   The group of a repeated sub-expression holds its last repetition. *)
Definition parse_plain_message (data : bytes) : res message_type :=
  if starts_with OTR_ERROR_PREFIX data then Ok (MsgError (skipn 11 data))
  else match find_query data with
  | Some (Some g) => Ok (MsgQuery (query_versions g))
  | Some None => Panic
  | None =>
      match find_tag data with
      | Some (_, gs, _) =>
          match rev gs with
          | [] => Panic
          | g :: _ =>
              Ok (MsgTagged (parse_whitespace_tags (length g) g) (clean_tags (length data) data))
          end
      | None => Ok (MsgPlaintext data)
      end
  end.

(** ** Encoding *)

(* encoding.rs:14-23, bitflags `bits` *)
Definition flags_byte (ignore_unreadable : bool) : byte := if ignore_unreadable then x01 else x00.
(* bitflags `from_bits`: any undefined bit is refused *)
Definition flags_from_byte (b : byte) : option bool :=
  if byte_eqb b x00 then Some false else if byte_eqb b x01 then Some true else None.

Definition dh_or_zero (o : option N) : N := match o with Some v => v | None => 0 end.

(* src/ake.rs:514-520, 538-542, 569-576, 598-604; src/dake.rs:538-547, 587-597, 634-638;
   src/messages.rs:332-345, 388-403 *)
Definition write_dh_commit (m : dh_commit) : bytes :=
  write_data (dc_gx_encrypted m) ++ write_data (dc_gx_hashed m).
Definition write_dh_key (m : dh_key_msg) : bytes := write_mpi (dk_gy m).
Definition write_reveal_sig (m : reveal_sig) : bytes :=
  write_data (rv_key m) ++ write_data (rv_signature_encrypted m) ++ rv_signature_mac m.
Definition write_sig_msg (m : sig_msg) : bytes :=
  write_data (sg_signature_encrypted m) ++ sg_signature_mac m.
Definition write_data3 (m : data3) : bytes :=
  write_u8 (flags_byte (d3_ignore_unreadable m)) ++ write_u32 (d3_sender_keyid m)
  ++ write_u32 (d3_receiver_keyid m) ++ write_mpi (d3_dh_y m) ++ d3_ctr m
  ++ write_data (d3_encrypted m) ++ d3_authenticator m ++ write_data (d3_revealed m).
Definition write_identity (m : identity_msg) : bytes :=
  write_payload (id_profile m) ++ write_ed448_point (id_y m) ++ write_mpi (id_b m)
  ++ write_ed448_point (id_ecdh0 m) ++ write_mpi (id_dh0 m).
Definition write_authr (m : authr_msg) : bytes :=
  write_payload (ar_profile m) ++ write_ed448_point (ar_x m) ++ write_mpi (ar_a m)
  ++ write_ring_signature (ar_sigma m) ++ write_ed448_point (ar_ecdh0 m) ++ write_mpi (ar_dh0 m).
Definition write_authi (m : authi_msg) : bytes := write_ring_signature (ai_sigma m).
Definition write_data4 (m : data4) : bytes :=
  write_u8 (flags_byte (d4_ignore_unreadable m)) ++ write_u32 (d4_pn m) ++ write_u32 (d4_i m)
  ++ write_u32 (d4_j m) ++ write_ed448_point (d4_ecdh m) ++ write_mpi (dh_or_zero (d4_dh m))
  ++ write_data (d4_encrypted m) ++ d4_authenticator m ++ write_data (d4_revealed m).

(* src/messages.rs:557-564 *)
Definition encode_version (v : version) : res N :=
  match v with VNone => Ok 0 | V3 => Ok 3 | V4 => Ok 4 | VUnsupported _ => Panic end.

(* src/messages.rs:208-242 *)
Definition type_code (m : encoded_type) : res byte :=
  match m with
  | MUnencoded _ => Panic
  | MDHCommit _ => Ok OTR_DH_COMMIT_TYPE_CODE
  | MDHKey _ => Ok OTR_DH_KEY_TYPE_CODE
  | MRevealSig _ => Ok OTR_REVEAL_SIGNATURE_TYPE_CODE
  | MSignature _ => Ok OTR_SIGNATURE_TYPE_CODE
  | MIdentity _ => Ok OTR_IDENTITY_TYPE_CODE
  | MAuthR _ => Ok OTR_AUTHR_TYPE_CODE
  | MAuthI _ => Ok OTR_AUTHI_TYPE_CODE
  | MData _ | MData4 _ => Ok OTR_DATA_TYPE_CODE
  end.
Definition write_content (m : encoded_type) : res bytes :=
  match m with
  | MUnencoded _ => Panic
  | MDHCommit m => Ok (write_dh_commit m)
  | MDHKey m => Ok (write_dh_key m)
  | MRevealSig m => Ok (write_reveal_sig m)
  | MSignature m => Ok (write_sig_msg m)
  | MData m => Ok (write_data3 m)
  | MIdentity m => Ok (write_identity m)
  | MAuthR m => Ok (write_authr m)
  | MAuthI m => Ok (write_authi m)
  | MData4 m =>
      (* src/messages.rs:390 assert *)
      if Nat.eqb (Nat.modulo (length (d4_revealed m)) 64) 0 then Ok (write_data4 m) else Panic
  end.
Definition write_encoded_message (m : encoded_message) : res bytes :=
  let* v := encode_version (em_version m) in
  let* t := type_code (em_message m) in
  let* c := write_content (em_message m) in
  Ok (write_u16 v ++ write_u8 t ++ write_u32 (em_sender m) ++ write_u32 (em_receiver m) ++ c).

Definition tag_of_version (v : version) : res bytes :=
  match v with
  | V3 => Ok WHITESPACE_TAG_OTRV3
  | V4 => Ok WHITESPACE_TAG_OTRV4
  | _ => Panic
  end.
Definition query_char (v : version) : res bytes :=
  match v with V3 => Ok [x33] | V4 => Ok [x34] | _ => Panic end.
Fixpoint concat_res {A} (f : A -> res bytes) (l : list A) : res bytes :=
  match l with
  | [] => Ok []
  | x :: r => let* a := f x in let* b := concat_res f r in Ok (a ++ b)
  end.

(* src/messages.rs:452-514 `serialize_message` *)
Definition serialize_message (m : message_type) : res bytes :=
  match m with
  | MsgError e => Ok (OTR_ERROR_PREFIX ++ e)
  | MsgPlaintext b => Ok b
  | MsgTagged vs b =>
      match vs with
      | [] => Panic
      | _ =>
          let* tags := concat_res tag_of_version (vec_unique vs) in
          Ok (WHITESPACE_PREFIX ++ tags ++ b)
      end
  | MsgQuery vs =>
      match vs with
      | [] => Panic
      | _ =>
          let* chars := concat_res query_char (vec_unique vs) in
          Ok (OTR_QUERY_PREFIX ++ chars ++ [x3f; x20] ++ OTR_USE_INFORMATION_MESSAGE)
      end
  | MsgEncoded em =>
      let* b := write_encoded_message em in
      Ok (OTR_ENCODED_PREFIX ++ b64_encode b ++ OTR_ENCODED_SUFFIX)
  end.

(* src/messages.rs:437-449 `encode_message` *)
Definition encode_message (v : version) (sender receiver : N) (m : encoded_type) : res bytes :=
  serialize_message (MsgEncoded (mkEncoded v sender receiver m)).

(* src/messages.rs:516-534 `encode_authenticator_data` *)
Definition encode_authenticator_data (sender receiver : N) (m : data3) : bytes :=
  write_u16 3 ++ write_u8 OTR_DATA_TYPE_CODE ++ write_u32 sender ++ write_u32 receiver
  ++ write_u8 (flags_byte (d3_ignore_unreadable m)) ++ write_u32 (d3_sender_keyid m)
  ++ write_u32 (d3_receiver_keyid m) ++ write_mpi (d3_dh_y m) ++ d3_ctr m ++ write_data (d3_encrypted m).
(* src/messages.rs:536-555 `encode_authenticator_data4` *)
Definition encode_authenticator_data4 (sender receiver : N) (m : data4) : bytes :=
  write_u16 4 ++ write_u8 OTR_DATA_TYPE_CODE ++ write_u32 sender ++ write_u32 receiver
  ++ write_u8 (flags_byte (d4_ignore_unreadable m)) ++ write_u32 (d4_pn m) ++ write_u32 (d4_i m)
  ++ write_u32 (d4_j m) ++ write_ed448_point (d4_ecdh m) ++ write_mpi (dh_or_zero (d4_dh m))
  ++ write_data (d4_encrypted m).

(** ** Decoding *)

Section WithCrypto.
Context (C : Crypto).

(* src/ake.rs:522-532 *)
Definition read_dh_commit : reader dh_commit := fun buf =>
  let* (a, buf) := read_data buf in
  let* (b, buf) := read_data buf in
  Ok (mkDHCommit a b, buf).
(* src/ake.rs:545-554 *)
Definition read_dh_key : reader dh_key_msg := fun buf =>
  let* (gy, buf) := read_mpi buf in Ok (mkDHKey gy, buf).
(* src/ake.rs:580-592 *)
Definition read_reveal_sig : reader reveal_sig := fun buf =>
  let* (k, buf) := read_data buf in
  if negb (Nat.eqb (length k) 16) then Err ProtocolViolation
  else
    let* (e, buf) := read_data buf in
    let* (m, buf) := read_mac buf in
    Ok (mkRevealSig k e m, buf).
(* src/ake.rs:607-617 *)
Definition read_sig_msg : reader sig_msg := fun buf =>
  let* (e, buf) := read_data buf in
  let* (m, buf) := read_mac buf in
  Ok (mkSigMsg e m, buf).
(* src/utils.rs:262-268 `u32::nonzero` with the error of its callers *)
Definition read_keyid : reader N := fun buf =>
  let* (v, buf) := read_u32 buf in
  if v =? 0 then Err ProtocolViolation else Ok (v, buf).
Definition read_flags : reader bool := fun buf =>
  let* (b, buf) := read_u8 buf in
  match flags_from_byte b with Some f => Ok (f, buf) | None => Err ProtocolViolation end.
(* src/messages.rs:308-330 *)
Definition read_data3 : reader data3 := fun buf =>
  let* (fl, buf) := read_flags buf in
  let* (sk, buf) := read_keyid buf in
  let* (rk, buf) := read_keyid buf in
  let* (y, buf) := read_mpi buf in
  let* (ctr, buf) := read_ctr buf in
  let* (enc, buf) := read_data buf in
  let* (mac, buf) := read_mac buf in
  let* (rev, buf) := read_data buf in
  Ok (mkData3 fl sk rk y ctr enc mac rev, buf).
(* src/dake.rs:549-565 *)
Definition read_identity : reader identity_msg := fun buf =>
  let* (p, buf) := read_payload C buf in
  let* (y, buf) := read_ed448_point C buf in
  let* (b, buf) := read_mpi buf in
  let* (e, buf) := read_ed448_point C buf in
  let* (d, buf) := read_mpi buf in
  Ok (mkIdentity p y b e d, buf).
(* src/dake.rs:599-617 *)
Definition read_authr : reader authr_msg := fun buf =>
  let* (p, buf) := read_payload C buf in
  let* (x, buf) := read_ed448_point C buf in
  let* (a, buf) := read_mpi buf in
  let* (s, buf) := read_ring_signature C buf in
  let* (e, buf) := read_ed448_point C buf in
  let* (d, buf) := read_mpi buf in
  Ok (mkAuthR p x a s e d, buf).
(* src/dake.rs:640-646 *)
Definition read_authi : reader authi_msg := fun buf =>
  let* (s, buf) := read_ring_signature C buf in Ok (mkAuthI s, buf).
(* src/messages.rs:360-386 *)
Definition read_data4 : reader data4 := fun buf =>
  let* (fl, buf) := read_flags buf in
  let* (pn, buf) := read_u32 buf in
  let* (i, buf) := read_u32 buf in
  let* (j, buf) := read_u32 buf in
  let* (e, buf) := read_ed448_point C buf in
  let* (d, buf) := read_mpi buf in
  let* (enc, buf) := read_data buf in
  let* (mac, buf) := read_mac4 buf in
  let* (rev, buf) := read_data buf in
  Ok (mkData4 fl pn i j e (if d =? 0 then None else Some d) enc mac rev, buf).

Definition map_fst {A B} (f : A -> B) (r : res (A * bytes)) : res (B * bytes) :=
  let* (a, rest) := r in Ok (f a, rest).

(* src/messages.rs:88-125 `parse_encoded_content` *)
Definition read_content (v : version) (t : byte) : reader encoded_type := fun buf =>
  match v with
  | V3 =>
      if byte_eqb t OTR_DH_COMMIT_TYPE_CODE then map_fst MDHCommit (read_dh_commit buf)
      else if byte_eqb t OTR_DH_KEY_TYPE_CODE then map_fst MDHKey (read_dh_key buf)
      else if byte_eqb t OTR_REVEAL_SIGNATURE_TYPE_CODE then map_fst MRevealSig (read_reveal_sig buf)
      else if byte_eqb t OTR_SIGNATURE_TYPE_CODE then map_fst MSignature (read_sig_msg buf)
      else if byte_eqb t OTR_DATA_TYPE_CODE then map_fst MData (read_data3 buf)
      else Err ProtocolViolation
  | V4 =>
      if byte_eqb t OTR_IDENTITY_TYPE_CODE then map_fst MIdentity (read_identity buf)
      else if byte_eqb t OTR_AUTHR_TYPE_CODE then map_fst MAuthR (read_authr buf)
      else if byte_eqb t OTR_AUTHI_TYPE_CODE then map_fst MAuthI (read_authi buf)
      else if byte_eqb t OTR_DATA_TYPE_CODE then map_fst MData4 (read_data4 buf)
      else Err ProtocolViolation
  | _ => Err ProtocolViolation
  end.

(* src/messages.rs:66-75 *)
Definition version_of_u16 (v : N) : res version :=
  if v =? 0 then Err ProtocolViolation
  else if v =? 3 then Ok V3
  else if v =? 4 then Ok V4
  else Err (UnsupportedVersion v).

(* src/messages.rs:61-86 `parse_encoded_message`, after base64.  Bytes that follow the message are
   not looked at. *)
Definition read_encoded_message : reader encoded_message := fun buf =>
  let* (v, buf) := read_u16 buf in
  let* v := version_of_u16 v in
  let* (t, buf) := read_u8 buf in
  let* (s, buf) := read_instance_tag buf in
  let* (r, buf) := read_instance_tag buf in
  let* (m, buf) := read_content v t buf in
  Ok (mkEncoded v s r m, buf).
Definition parse_encoded_message (data : bytes) : res message_type :=
  match b64_decode data with
  | None => Err ProtocolViolation
  | Some buf => let* (m, _) := read_encoded_message buf in Ok (MsgEncoded m)
  end.

(* src/messages.rs:51-59 `parse`.  `data[start..end]` with end = length - 1; "?OTR:" does not end in
   '.', so start <= end. *)
Definition parse (data : bytes) : res message_type :=
  if starts_with OTR_ENCODED_PREFIX data && ends_with OTR_ENCODED_SUFFIX data
  then parse_encoded_message (firstn (length data - 6) (skipn 5 data))
  else parse_plain_message data.

(* src/messages.rs:405-434 `DataMessage4::validate` *)
Definition data4_validate (m : data4) : res unit :=
  if negb (Bool.eqb (d4_i m mod 3 =? 0) (is_some (d4_dh m))) then Err ProtocolViolation
  else
    let* _ := match d4_dh m with
              | Some v => of_bool (dh3_verify C v)
              | None => Ok tt
              end in
    let* _ := of_bool (pt_verify C (d4_ecdh m)) in
    if negb (Nat.eqb (Nat.modulo (length (d4_revealed m)) 64) 0) then Err ProtocolViolation
    else if (0 <? d4_i m) && (d4_j m =? 0) && Nat.eqb (Nat.div (length (d4_revealed m)) 64) 0
    then Err ProtocolViolation
    else if all_zero (d4_authenticator m) then Panic   (* debug_assert *)
    else Ok tt.

End WithCrypto.
