(* src/session.rs:20-128 `Account`: the client profile and the sessions of one chat account.
   Not modelled: `Rc` sharing (the details of the account are copied into every session; they never change). *)
From Verif Require Import Base Types Crypto Encoding ClientProfile DAKE Session.
Local Open Scope N_scope.

(* src/instancetag.rs:31-40 `random_tag`: the loop over the values drawn, 4 bytes each; None if the list of
   draws ends before the loop does. *)
Fixpoint random_tag (draws : list bytes) : option N :=
  match draws with
  | [] => None
  | d :: r => let num := be_val (fix_len 4 d) in if INSTANCE_MIN_VALID <=? num then Some num else random_tag r
  end.

(* What the host supplies to an account: the stored client profile (`client_profile`, replaced by
   `update_client_profile`) and its keys (src/lib.rs:227-253). *)
Record account_host : Type := mkAccountHost {
  ah_profile : bytes; ah_identity : eddsa_keypair; ah_forging : point; ah_legacy : option dsa_keypair }.

(* src/session.rs:20-25 *)
Record account : Type := mkAccount {
  ac_policy : policy; ac_tag : N; ac_account : bytes; ac_profile : client_profile;
  ac_sessions : list (bytes * session) }.

(* src/session.rs:65 *)
Definition DEFAULT_EXPIRATION : N := 7 * 24 * 3600.

Section WithCrypto.
Context (C : Crypto).

(* src/session.rs:55-62 `restore_clientprofile` *)
Definition restore_clientprofile (h : account_host) : res client_profile :=
  let* payload := decode_profile C (ah_profile h) in payload_validate C payload.

(* src/session.rs:64-97 `generate_clientprofile`: the profile and the bytes given to the host.  [now] is the
   clock, [nonce] the randomness of the DSA signature. *)
Definition generate_clientprofile (h : account_host) (now tag : N) (nonce : bytes) : res (client_profile * bytes) :=
  let versions := V4 :: match ah_legacy h with Some _ => [V3] | None => [] end in
  let expiration := Z.of_N (now + DEFAULT_EXPIRATION) in
  if (9223372036854775807 <? expiration)%Z then Panic
  else
    let p := mkProfile tag (ed_public (ah_identity h)) (ah_forging h) versions expiration
               (option_map dsa_pk (ah_legacy h)) in
    match profile_new C now p with
    | Ok profile =>
        let* payload := profile_sign C profile (ah_identity h) (ah_legacy h) nonce in
        Ok (profile, write_payload payload)
    | _ => Panic
    end.

(* src/session.rs:33-52 `new`: the account, and the host with the profile it then stores.  None if the values
   drawn do not suffice. *)
Definition account_new (h : account_host) (now : N) (draws : list bytes) (nonce name : bytes) (p : policy)
  : option (res (account * account_host)) :=
  match restore_clientprofile h with
  | Panic => Some Panic
  | Ok profile => Some (Ok (mkAccount p (cp_owner profile) name profile [], h))
  | Err _ =>
      match random_tag draws with
      | None => None
      | Some tag =>
          Some (let* (profile, stored) := generate_clientprofile h now tag nonce in
                Ok (mkAccount p (cp_owner profile) name profile [],
                    mkAccountHost stored (ah_identity h) (ah_forging h) (ah_legacy h)))
      end
  end.

(** ** Sessions by address (a HashMap in the code) *)

Fixpoint find_session (address : bytes) (l : list (bytes * session)) : option session :=
  match l with
  | [] => None
  | (a, s) :: r => if bytes_eqb a address then Some s else find_session address r
  end.
Fixpoint store_session (address : bytes) (s : session) (l : list (bytes * session)) : list (bytes * session) :=
  match l with
  | [] => [(address, s)]
  | (a, x) :: r => if bytes_eqb a address then (a, s) :: r else (a, x) :: store_session address s r
  end.
Definition with_sessions (a : account) (l : list (bytes * session)) : account :=
  mkAccount (ac_policy a) (ac_tag a) (ac_account a) (ac_profile a) l.
Definition details_for (a : account) (address : bytes) : details :=
  mkDetails (ac_policy a) (ac_tag a) (ac_account a) address.

(* src/session.rs:109-118 `session`: the session, created if there is none *)
Definition account_session (a : account) (address : bytes) : session :=
  match find_session address (ac_sessions a) with
  | Some s => s
  | None => session_new (details_for a address)
  end.
(* A call on `account.session(address)` *)
Definition on_session {A} (a : account) (address : bytes) (f : session -> effect session A) : effect account A :=
  match f (account_session a address) with
  | (s', out, r) => (with_sessions a (store_session address s' (ac_sessions a)), out, r)
  end.

(* src/session.rs:123-128 `expire`: every session, each with its own random values, clock and host.
   Simplified: in the order in which the sessions were created; the code iterates over a HashMap. *)
Fixpoint expire_sessions (es : bytes -> N -> env) (timeout : N) (l : list (bytes * session))
  : list (bytes * session) * list bytes * res unit :=
  match l with
  | [] => ([], [], Ok tt)
  | (a, s) :: r =>
      match expire C (es a) s timeout with
      | (s', out, Ok _) =>
          let '(r', out', x) := expire_sessions es timeout r in ((a, s') :: r', out ++ out', x)
      | (s', out, x) => ((a, s') :: r, out, x)
      end
  end.
Definition account_expire (es : bytes -> N -> env) (a : account) (timeout : N) : effect account unit :=
  match expire_sessions es timeout (ac_sessions a) with
  | (l, out, r) => (with_sessions a l, out, r)
  end.

End WithCrypto.
