(* Vocabulary for the properties of accounts: calls, histories, and the part of a history that concerns one
   correspondent. *)
From Verif Require Import Base Types Crypto Encoding ClientProfile Session SpecWire SpecSession Account.
Local Open Scope N_scope.

(* a call on the session with the correspondent at an address, or expire for the whole account *)
Inductive account_op : Type :=
| AcCall (address : bytes) (o : op)
| AcExpire (timeout : N).
Definition account_call (C : Crypto) (es : bytes -> N -> env) (a : account) (o : account_op)
  : effect account answer :=
  match o with
  | AcCall address o => on_session a address (fun s => call C (es address) s o)
  | AcExpire timeout =>
      let '(a', out, r) := account_expire C es a timeout in (a', out, res_map (fun _ => AnDone) r)
  end.

Record account_event : Type := mkAccountEvent {
  ae_op : account_op; ae_injected : list bytes; ae_result : res answer }.
(* from a0 the calls of h, oldest first, lead to a; a crash ends the run *)
Inductive account_run (C : Crypto) (a0 : account) : list account_event -> account -> Prop :=
| account_run_nil : account_run C a0 [] a0
| account_run_call h a es o a' out r :
    account_run C a0 h a -> account_call C es a o = (a', out, r) -> r <> Panic ->
    account_run C a0 (h ++ [mkAccountEvent o out r]) a'.

(* [concerns address h hs]: hs is what happened to the session with that correspondent during h: the calls on
   it, with what they injected and answered, and each expire of the account since the first of them. *)
Inductive concerns (address : bytes) : list account_event -> list event -> Prop :=
| concerns_nil : concerns address [] []
| concerns_call h hs o out r :
    concerns address h hs ->
    concerns address (h ++ [mkAccountEvent (AcCall address o) out r]) (hs ++ [mkEvent o out r])
| concerns_other h hs other o out r :
    concerns address h hs -> other <> address ->
    concerns address (h ++ [mkAccountEvent (AcCall other o) out r]) hs
| concerns_expire h hs timeout before out after r :
    concerns address h hs -> hs <> [] ->
    concerns address (h ++ [mkAccountEvent (AcExpire timeout) (before ++ out ++ after) r])
      (hs ++ [mkEvent (OpExpire timeout) out r])
| concerns_expire_none h timeout out r :
    concerns address h [] ->
    concerns address (h ++ [mkAccountEvent (AcExpire timeout) out r]) [].

(* The keys of a host that can be put in a profile and sign it: the points are on the curve, the DSA key is a
   proper one, and its signatures are. *)
Definition host_keys_ok (C : Crypto) (h : account_host) : Prop :=
  point_wire_ok C (ed_public (ah_identity h)) /\ point_wire_ok C (ah_forging h) /\
  match ah_legacy h with
  | Some k => dsa_pub_ok C (dsa_pk k) /\ forall nonce m, dsa_sig_ok C (dsa_sign C k nonce m)
  | None => True
  end.

(* The signature of the key pair on m is degenerate: its point is the identity or its scalar is zero.  (The chance
   is negligible; such a signature is refused.) *)
Definition degenerate_signature (C : Crypto) (k : eddsa_keypair) (m : bytes) : Prop :=
  exists sg, eddsa_sign C k m = Ok sg /\ (pt_decode C (edsig_R sg) = Some pt_id \/ le_val (edsig_s sg) = 0).
(* the fields of the profile of a new account, in their order *)
Definition new_fields (C : Crypto) (h : account_host) (now tag : N) (nonce : bytes) : list field :=
  let fs legacy := [FOwnerTag tag; FIdentityKey (ed_public (ah_identity h)); FForgingKey (ah_forging h);
                    FVersions (V4 :: legacy); FExpiration (Z.of_N (now + 604800))] in
  match ah_legacy h with
  | None => fs []
  | Some k => let fs := fs [V3] ++ [FLegacyKey (dsa_pk k)] in
              fs ++ [FTransitional (dsa_sign C k nonce (write_fields fs))]
  end.
