(* C50, C52 to C54, and more on C34: instance tags, accounts, EdDSA signatures.  Only statements, references to their
   proofs, and examples showing that the hypotheses can be met. *)
From Verif Require Import Base BaseLemmas Types Crypto ToyCrypto Encoding EncodingProofs ClientProfile Messages Fragment DAKE DAKEExamples
  Session SpecWire SpecCurve SpecSMP4 SMP4Lemmas EddsaProofs SpecSession SessionHistProofs SessionExamples
  Account SpecAccount AccountProofs AccountLemmas.
Local Open Scope N_scope.

(** * C50: instance tags are legal *)

(* in every encoded message that is accepted, *)
Theorem C50_messages : forall C b em,
  parse C b = Ok (MsgEncoded em) -> legal_tag (em_sender em) /\ legal_tag (em_receiver em).
Proof. exact parse_legal. Qed.
Print Assumptions C50_messages.
(* in every fragment, *)
Theorem C50_fragments : forall p f, parse_fragment p = Ok (Some f) -> legal_tag (fr_sender f) /\ legal_tag (fr_receiver f).
Proof. exact parse_fragment_legal. Qed.
Print Assumptions C50_fragments.
(* in every client profile, *)
Theorem C50_profiles : forall C buf p rest cp,
  read_payload C buf = Ok (p, rest) -> payload_validate C p = Ok cp -> legal_tag (cp_owner cp).
Proof. exact profile_owner_legal. Qed.
Print Assumptions C50_profiles.
(* and of every account. *)
Theorem C50_account : forall C h now draws nonce name p a h',
  account_new C h now draws nonce name p = Some (Ok (a, h')) -> legal_tag (ac_tag a).
Proof. exact account_tag_legal. Qed.
Print Assumptions C50_account.
(* A generated tag is the first value drawn that is not below 256; in particular it is not 0. *)
Theorem C50_generated : forall draws t,
  (random_tag draws = Some t <->
     exists before d after, draws = before ++ d :: after /\ t = be_val (fix_len 4 d) /\ 256 <= t /\
       Forall (fun x => be_val (fix_len 4 x) < 256) before) /\
  (random_tag draws = Some t -> 256 <= t < 4294967296).
Proof. intros draws t. split; [exact (random_tag_first draws t)|exact (random_tag_legal draws t)]. Qed.
Print Assumptions C50_generated.
(* "0 is never the tag of an account" does not hold: a stored profile with tag 0 is restored. *)
Theorem C50_account_zero_refuted : ~ (forall C h now draws nonce name p a h',
  account_new C h now draws nonce name p = Some (Ok (a, h')) -> 256 <= ac_tag a).
Proof. exact account_zero. Qed.
Print Assumptions C50_account_zero_refuted.
Example C50_ex :
  random_tag [[x00; x00; x00; xff]; [x00; x01; x02; x03]] = Some 66051 /\
  account_new toy na_host xd_now [[x00; x00; x00; xff]; [x00; x01; x02; x03]] [] [x61] ra_policy = Some (Ok na_new) /\
  ac_tag (fst na_new) = 66051.
Proof. split; [reflexivity|]. split; [exact na_created|reflexivity]. Qed.

(** * C52: a restarted client is the same client *)

(* With keys that can be put in a profile: creating the account again, at any time and with any random values, gives
   the same instance tag and profile, and leaves what the host stores alone. *)
Theorem C52_restart : forall C h now draws nonce name p a h',
  host_keys_ok C h -> account_new C h now draws nonce name p = Some (Ok (a, h')) ->
  forall now' draws' nonce' name' p', exists a',
  account_new C h' now' draws' nonce' name' p' = Some (Ok (a', h')) /\
  ac_tag a' = ac_tag a /\ ac_profile a' = ac_profile a /\ ac_sessions a' = [].
Proof.
  intros C h now draws nonce name p a h' K H now' draws' nonce' name' p'. eexists.
  split; [exact (restart C h now draws nonce name p a h' K H now' draws' nonce' name' p')|]. repeat split.
Qed.
Print Assumptions C52_restart.
(* The profile is the stored one if that is properly signed; otherwise a new one with the host's keys, a fresh tag,
   OTRv4 and if there is a DSA key OTRv3, expiring after a week. *)
Theorem C52_profile : forall C h now draws nonce name p a h',
  account_new C h now draws nonce name p = Some (Ok (a, h')) ->
  ac_tag a = cp_owner (ac_profile a) /\
  ((h' = h /\ exists pl, read_payload C (ah_profile h) = Ok (pl, []) /\ payload_accepted C pl (ac_profile a))
   \/ (ac_profile a = mkProfile (ac_tag a) (ed_public (ah_identity h)) (ah_forging h)
         (V4 :: match ah_legacy h with Some _ => [V3] | None => [] end) (Z.of_N (now + 604800))
         (option_map dsa_pk (ah_legacy h)) /\
       random_tag draws = Some (ac_tag a) /\
       exists pl, ah_profile h' = write_payload pl /\ payload_accepted C pl (ac_profile a))).
Proof. exact account_profile_is. Qed.
Print Assumptions C52_profile.
(* A host with proper keys gets its account: nothing crashes. *)
Theorem C52_created : forall C h now draws nonce name p sym t,
  smp4_group C -> eddsa_of_symmetric C sym = Ok (ah_identity h) ->
  pt_verify C (ed_public (ah_identity h)) = true -> pt_verify C (ah_forging h) = true ->
  (forall kp m, ah_legacy h = Some kp -> dsa_validate C (dsa_pk kp) (dsa_sign C kp nonce m) m = Ok tt) ->
  now + 604800 < 9223372036854775808 ->
  random_tag draws = Some t ->
  ~ degenerate_signature C (ah_identity h) (write_fields (new_fields C h now t nonce)) ->
  exists a h', account_new C h now draws nonce name p = Some (Ok (a, h')).
Proof. exact account_created. Qed.
Print Assumptions C52_created.
Example C52_ex :
  host_keys_ok toy na_host /\
  account_new toy na_host xd_now [[x00; x00; x00; xff]; [x00; x01; x02; x03]] [] [x61] ra_policy = Some (Ok na_new) /\
  account_new toy (snd na_new) 0 [] [] [x61] ra_policy = Some (Ok na_new) /\
  smp4_group toy /\ eddsa_of_symmetric toy [x01] = Ok (ah_identity na_host) /\
  pt_verify toy (ed_public (ah_identity na_host)) = true /\ pt_verify toy (ah_forging na_host) = true /\
  ~ degenerate_signature toy (ah_identity na_host) (write_fields (new_fields toy na_host xd_now 66051 [])).
Proof. exact na_facts. Qed.

(** * C34 again: a stored profile that has expired is used *)
(* The message of the code says that an expired profile is replaced; it is not. *)
Theorem C34_own_expired_refuted : ~ (forall C h now draws nonce name p a h',
  account_new C h now draws nonce name p = Some (Ok (a, h')) -> (Z.of_N now < cp_expiration (ac_profile a))%Z).
Proof. exact account_expired. Qed.
Print Assumptions C34_own_expired_refuted.

(** * C53: the sessions of an account *)

(* Every session of an account, after any history of calls on the account, has a history of its own: exactly the
   calls for that correspondent.  So every property of sessions holds for it. *)
Theorem C53_sessions : forall C a0 h a address,
  account_run C a0 h a -> ac_sessions a0 = [] ->
  exists hs, concerns address h hs /\
    history C (mkDetails (ac_policy a0) (ac_tag a0) (ac_account a0) address) hs (account_session a address).
Proof.
  intros C a0 h a x R E. destruct (account_inv C a0 h a R E) as (_ & _ & I). destruct (I x) as (hs & CO & HI & _). eauto.
Qed.
Print Assumptions C53_sessions.
(* A call for one correspondent leaves the sessions with others alone. *)
Theorem C53_isolated : forall C es a address o a' out r other,
  account_call C es a (AcCall address o) = (a', out, r) -> other <> address ->
  account_session a' other = account_session a other.
Proof. intros C es a x o a' out r y H. exact (on_session_other _ a x _ a' out r y H). Qed.
Print Assumptions C53_isolated.
(* expire never reports an error, and does for every session what expire of the session does. *)
Theorem C53_expire : forall C a0 h a es timeout a' out r,
  account_run C a0 h a -> ac_sessions a0 = [] -> account_expire C es a timeout = (a', out, r) -> r <> Panic ->
  r = Ok tt /\
  forall address s, find_session address (ac_sessions a) = Some s -> exists s' before o after,
    find_session address (ac_sessions a') = Some s' /\ out = before ++ o ++ after /\
    expire C (es address) s timeout = (s', o, Ok tt).
Proof. exact account_expires. Qed.
Print Assumptions C53_expire.
Example C53_ex : exists h a,
  account_run toy (fst na_new) h a /\ ac_sessions (fst na_new) = [] /\
  length h = 3%nat /\ map fst (ac_sessions a) = [[x62]; [x63]].
Proof. exact na_run. Qed.

(** * C54: EdDSA signatures verify *)

(* A signature of a key pair made from its seed verifies under its public key, unless it is degenerate. *)
Theorem C54_eddsa : forall C sym k m sg,
  smp4_group C -> eddsa_of_symmetric C sym = Ok k -> eddsa_sign C k m = Ok sg ->
  (eddsa_validate C (ed_public k) sg m = Ok tt <-> ~ degenerate_signature C k m).
Proof. exact eddsa_iff. Qed.
Print Assumptions C54_eddsa.
(* and a key pair always signs. *)
Theorem C54_signs : forall C sym k m, eddsa_of_symmetric C sym = Ok k -> exists sg, eddsa_sign C k m = Ok sg.
Proof. exact eddsa_signs. Qed.
Print Assumptions C54_signs.
Example C54_ex :
  smp4_group toy /\ eddsa_of_symmetric toy [x01] = Ok xd_ka /\
  exists sg, eddsa_sign toy xd_ka [x68; x69] = Ok sg /\ eddsa_validate toy (ed_public xd_ka) sg [x68; x69] = Ok tt /\
    eddsa_validate toy (ed_public xd_ka) sg [x68] = Err CryptographicViolation.
Proof.
  split; [exact toy_smp4_group|]. split; [vm_compute; reflexivity|]. eexists. split; [vm_compute; reflexivity|].
  split; vm_compute; reflexivity.
Qed.
