(* src/clientprofile.rs *)
From Verif Require Import Base Types Crypto Encoding.
Local Open Scope N_scope.

(* src/clientprofile.rs:11-18 *)
Record client_profile : Type := mkProfile {
  cp_owner : N; cp_identity : point; cp_forging : point; cp_versions : list version;
  cp_expiration : Z; cp_legacy : option dsa_pub }.

(* src/clientprofile.rs:270-279 `enum Field` *)
Inductive field : Type :=
| FOwnerTag (tag : N)
| FIdentityKey (p : point)
| FForgingKey (p : point)
| FVersions (vs : list version)
| FExpiration (t : Z)
| FLegacyKey (k : dsa_pub)
| FTransitional (s : dsa_sig).

(* src/clientprofile.rs:102-106 *)
Record profile_payload : Type := mkPayload { pl_fields : list field; pl_signature : ed_sig }.

(* src/clientprofile.rs:415-425 `parse_versions`: other characters are skipped *)
Fixpoint parse_versions (data : bytes) : list version :=
  match data with
  | [] => []
  | c :: rest =>
      if byte_eqb c x33 then V3 :: parse_versions rest
      else if byte_eqb c x34 then V4 :: parse_versions rest
      else parse_versions rest
  end.

(* src/clientprofile.rs:427-437 `encode_versions`.  Simplified: the code panics on versions other than
   3 and 4, here they are written as nothing; only lists of V3/V4 are ever encoded. *)
Fixpoint encode_versions (vs : list version) : bytes :=
  match vs with
  | [] => []
  | V3 :: r => x33 :: encode_versions r
  | V4 :: r => x34 :: encode_versions r
  | _ :: r => encode_versions r
  end.

(* src/clientprofile.rs:403-413 `verify_versions` *)
Definition is_v3_v4 (v : version) : bool := match v with V3 | V4 => true | _ => false end.
Definition verify_versions (vs : list version) : res unit :=
  if forallb is_v3_v4 vs then Ok tt else Err ProtocolViolation.

(* src/clientprofile.rs:281-314, 350-355, 379-384 *)
Definition write_field (f : field) : bytes :=
  match f with
  | FOwnerTag tag => write_u16 1 ++ write_u32 tag
  | FIdentityKey p => write_u16 2 ++ write_u16_le 16 ++ write_ed448_point p
  | FForgingKey p => write_u16 3 ++ write_u16_le 18 ++ write_ed448_point p
  | FVersions vs => write_u16 4 ++ write_data (encode_versions vs)
  | FExpiration t => write_u16 5 ++ write_i64 t
  | FLegacyKey k => write_u16 6 ++ write_public_key k
  | FTransitional s => write_u16 7 ++ write_dsa_signature s
  end.
Definition write_fields (fs : list field) : bytes := concat (map write_field fs).

(* src/clientprofile.rs:108-116 *)
Definition write_payload (p : profile_payload) : bytes :=
  write_u32 (N.of_nat (length (pl_fields p))) ++ write_fields (pl_fields p)
  ++ write_ed_sig (pl_signature p).

(* The local variables of src/clientprofile.rs:153-159. *)
Record collected : Type := mkCollected {
  co_owner : option N; co_identity : option point; co_forging : option point;
  co_versions : list version; co_expiration : option Z; co_legacy : option dsa_pub;
  co_transitional : option dsa_sig }.
Definition collected0 : collected := mkCollected None None None [] None None None.

(* src/clientprofile.rs:160-212: one iteration of the loop over the fields *)
Definition collect_field (c : collected) (f : field) : res collected :=
  match f with
  | FOwnerTag tag =>
      match co_owner c with
      | Some _ => Err ProtocolViolation
      | None => Ok (mkCollected (Some tag) (co_identity c) (co_forging c) (co_versions c)
                      (co_expiration c) (co_legacy c) (co_transitional c))
      end
  | FIdentityKey p =>
      match co_identity c with
      | Some _ => Err ProtocolViolation
      | None => Ok (mkCollected (co_owner c) (Some p) (co_forging c) (co_versions c)
                      (co_expiration c) (co_legacy c) (co_transitional c))
      end
  | FForgingKey p =>
      match co_forging c with
      | Some _ => Err ProtocolViolation
      | None => Ok (mkCollected (co_owner c) (co_identity c) (Some p) (co_versions c)
                      (co_expiration c) (co_legacy c) (co_transitional c))
      end
  | FVersions vs =>
      match co_versions c with
      | _ :: _ => Err ProtocolViolation
      | [] => Ok (mkCollected (co_owner c) (co_identity c) (co_forging c) vs
                      (co_expiration c) (co_legacy c) (co_transitional c))
      end
  | FExpiration t =>
      match co_expiration c with
      | Some _ => Err ProtocolViolation
      | None => Ok (mkCollected (co_owner c) (co_identity c) (co_forging c) (co_versions c)
                      (Some t) (co_legacy c) (co_transitional c))
      end
  | FLegacyKey k =>
      match co_legacy c with
      | Some _ => Err ProtocolViolation
      | None => Ok (mkCollected (co_owner c) (co_identity c) (co_forging c) (co_versions c)
                      (co_expiration c) (Some k) (co_transitional c))
      end
  | FTransitional s =>
      match co_transitional c with
      | Some _ => Err ProtocolViolation
      | None => Ok (mkCollected (co_owner c) (co_identity c) (co_forging c) (co_versions c)
                      (co_expiration c) (co_legacy c) (Some s))
      end
  end.
Fixpoint collect_fields (c : collected) (fs : list field) : res collected :=
  match fs with
  | [] => Ok c
  | f :: r => let* c' := collect_field c f in collect_fields c' r
  end.

Definition is_transitional (f : field) : bool := match f with FTransitional _ => true | _ => false end.
Definition is_some {A} (o : option A) : bool := match o with Some _ => true | None => false end.

Section WithCrypto.
Context (C : Crypto).

(* src/clientprofile.rs:317-337, 358-370, 389-400 `decode` *)
Definition read_field : reader field := fun buf =>
  let* (typ, buf) := read_u16 buf in
  if typ =? 1 then let* (t, buf) := read_instance_tag buf in Ok (FOwnerTag t, buf)
  else if typ =? 2 then
    let* (k, buf) := read_u16_le buf in
    if negb (k =? 16) then Err ProtocolViolation
    else let* (p, buf) := read_ed448_point C buf in Ok (FIdentityKey p, buf)
  else if typ =? 3 then
    let* (k, buf) := read_u16_le buf in
    if negb (k =? 18) then Err ProtocolViolation
    else let* (p, buf) := read_ed448_point C buf in Ok (FForgingKey p, buf)
  else if typ =? 4 then let* (d, buf) := read_data buf in Ok (FVersions (parse_versions d), buf)
  else if typ =? 5 then let* (t, buf) := read_i64 buf in Ok (FExpiration t, buf)
  else if typ =? 6 then let* (k, buf) := read_public_key C buf in Ok (FLegacyKey k, buf)
  else if typ =? 7 then let* (s, buf) := read_dsa_signature C buf in Ok (FTransitional s, buf)
  else Err ProtocolViolation.

(* The loop of src/clientprofile.rs:129-131.  A field takes at least two bytes, so recursion on the
   buffer length ends exactly where the next field read would fail.  Not modelled: the memory that
   `Vec::with_capacity(n)` requests for an n read from the network. *)
Fixpoint read_fields (fuel : nat) (count : N) (buf : bytes) : res (list field * bytes) :=
  if count =? 0 then Ok ([], buf)
  else match fuel with
       | O => Err IncompleteMessage
       | S f =>
           let* (v, rest) := read_field buf in
           let* (vs, rest') := read_fields f (count - 1) rest in
           Ok (v :: vs, rest')
       end.

(* src/clientprofile.rs:151-267 `validate` *)
Definition payload_validate (p : profile_payload) : res client_profile :=
  let* c := collect_fields collected0 (pl_fields p) in
  match co_owner c, co_identity c, co_forging c, co_versions c, co_expiration c with
  | Some owner, Some identity, Some forging, _ :: _, Some expiration =>
      if contains_version V3 (co_versions c) && negb (is_some (co_transitional c))
      then Err ProtocolViolation
      else if negb (Bool.eqb (is_some (co_legacy c)) (is_some (co_transitional c)))
      then Err ProtocolViolation
      else
        let* _ := eddsa_validate C identity (pl_signature p) (write_fields (pl_fields p)) in
        let profile := mkProfile owner identity forging (co_versions c) expiration (co_legacy c) in
        match co_legacy c, co_transitional c with
        | Some legacy, Some sg =>
            let* _ := dsa_validate C legacy sg
                        (write_fields (filter (fun f => negb (is_transitional f)) (pl_fields p))) in
            Ok profile
        | _, _ => Ok profile
        end
  | _, _, _, _, _ => Err ProtocolViolation
  end.

(* src/clientprofile.rs:125-138 `decode` *)
Definition read_payload : reader profile_payload := fun buf =>
  let* (n, buf) := read_u32 buf in
  let* (fs, buf) := read_fields (length buf) n buf in
  let* (sg, buf) := read_ed448_signature buf in
  let p := mkPayload fs sg in
  let* _ := payload_validate p in
  Ok (p, buf).

(* src/clientprofile.rs:26-58 `ClientProfile::new` with `validate`; [now] is the clock in seconds *)
Definition profile_new (now : N) (p : client_profile) : res client_profile :=
  let* _ := tag_verify (cp_owner p) in
  let* _ := of_bool (pt_verify C (cp_identity p)) in
  let* _ := of_bool (pt_verify C (cp_forging p)) in
  let* _ := verify_versions (cp_versions p) in
  if (cp_expiration p <? 0)%Z || (Z.to_N (cp_expiration p) <=? now) then Err ProtocolViolation
  else Ok p.

(* src/clientprofile.rs:66-100 `sign`; [nonce] is the randomness of the DSA signature *)
Definition profile_sign (p : client_profile) (identity : eddsa_keypair) (legacy : option dsa_keypair)
  (nonce : bytes) : res profile_payload :=
  if negb (point_eqb (cp_identity p) (ed_public identity)) then Panic
  else if negb (Bool.eqb (is_some (cp_legacy p)) (is_some legacy)) then Panic
  else
    let fields := [FOwnerTag (cp_owner p); FIdentityKey (cp_identity p); FForgingKey (cp_forging p);
                   FVersions (cp_versions p); FExpiration (cp_expiration p)] in
    let fields :=
      match cp_legacy p, legacy with
      | Some pk, Some kp =>
          let fs := fields ++ [FLegacyKey pk] in
          fs ++ [FTransitional (dsa_sign C kp nonce (write_fields fs))]
      | _, _ => fields
      end in
    let* sg := eddsa_sign C identity (write_fields fields) in
    let payload := mkPayload fields sg in
    (* debug_assert!(payload.validate().is_ok()) *)
    match payload_validate payload with
    | Ok _ => Ok payload
    | _ => Panic
    end.

End WithCrypto.
