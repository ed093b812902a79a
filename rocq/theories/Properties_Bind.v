(* C81: a signature is about one exchange, and an authenticator about one message. *)
From Verif Require Import Base Types Crypto ToyCrypto Encoding ClientProfile Messages Fragment DAKEExamples Protocol Session SpecCurve ToyGroup SpecWire
  SpecDAKE SessionExamples NetExamples Net4Examples StartExamples SpecOrigin OriginExamples SpecSession SpecBind BindProofs.
Local Open Scope N_scope.

(** ** Conversations *)

(* Two sessions, of any two users, which report the start of a conversation because of an Auth-R message with the same
   ring signature took part in the same exchange: the profiles, the keys and the names are the same.  Otherwise somebody
   found two texts with one hash, and the theorem says which texts. *)
Theorem C81_auth_r : forall C d h em t m d' h' em' t' m',
  curve_ok C -> 0 < c_dh_g C -> 0 < c_dh3_p C -> mpi_range (c_dh3_p C) -> names_fit d -> names_fit d' ->
  begun C d h em t -> em_message em = MAuthR m -> begun C d' h' em' t' -> em_message em' = MAuthR m' -> ar_sigma m = ar_sigma m' ->
  exists i bob alice i' bob' alice', has_offered d h t V4 (MIdentity i) /\ profiles C i m bob alice /\
    has_offered d' h' t' V4 (MIdentity i') /\ profiles C i' m' bob' alice' /\
    (same_exchange i m i' m' /\ same_names d d' \/
     broken_r C (ar_sigma m) bob alice (message_view i m bob alice (de_account d) (de_address d))
       bob' alice' (message_view i' m' bob' alice' (de_account d') (de_address d'))).
Proof. intros C d h em t m d' h' em' t' m' CO GP PP PR. exact (one_exchange_r C CO GP PP PR d h em t m d' h' em' t' m'). Qed.
Print Assumptions C81_auth_r.

(* The same for Auth-I. *)
Theorem C81_auth_i : forall C d h em t a d' h' em' t' a',
  curve_ok C -> 0 < c_dh_g C -> 0 < c_dh3_p C -> mpi_range (c_dh3_p C) -> names_fit d -> names_fit d' ->
  begun C d h em t -> em_message em = MAuthI a -> begun C d' h' em' t' -> em_message em' = MAuthI a' -> ai_sigma a = ai_sigma a' ->
  exists i m bob alice i' m' bob' alice', has_got C d h t V4 (MIdentity i) /\ has_sent d h t V4 (MAuthR m) /\ profiles C i m bob alice /\
    has_got C d' h' t' V4 (MIdentity i') /\ has_sent d' h' t' V4 (MAuthR m') /\ profiles C i' m' bob' alice' /\
    (same_exchange i m i' m' /\ same_names d d' \/
     broken_i C (ai_sigma a) bob alice (message_view i m bob alice (de_address d) (de_account d))
       bob' alice' (message_view i' m' bob' alice' (de_address d') (de_account d'))).
Proof. intros C d h em t a d' h' em' t' a' CO GP PP PR. exact (one_exchange_i C CO GP PP PR d h em t a d' h' em' t' a'). Qed.
Print Assumptions C81_auth_i.

(* The signature of an Auth-R message is not that of an Auth-I message, not even in another exchange. *)
Theorem C81_roles : forall C d h em t m d' h' em' t' a,
  curve_ok C -> 0 < c_dh_g C -> 0 < c_dh3_p C -> mpi_range (c_dh3_p C) -> names_fit d -> names_fit d' ->
  begun C d h em t -> em_message em = MAuthR m -> begun C d' h' em' t' -> em_message em' = MAuthI a -> ar_sigma m = ai_sigma a ->
  exists i bob alice i' m' bob' alice', has_offered d h t V4 (MIdentity i) /\ profiles C i m bob alice /\
    has_got C d' h' t' V4 (MIdentity i') /\ has_sent d' h' t' V4 (MAuthR m') /\ profiles C i' m' bob' alice' /\
    clash (challenge C)
      (ring_text C (ar_sigma m) (cp_forging bob) (cp_identity alice) (id_y i)
         (auth_r_text C (message_view i m bob alice (de_account d) (de_address d))))
      (ring_text C (ar_sigma m) (cp_identity bob') (cp_forging alice') (ar_x m')
         (auth_i_text C (message_view i' m' bob' alice' (de_address d') (de_account d')))).
Proof. intros C d h em t m d' h' em' t' a CO GP PP PR. exact (one_role C CO GP PP PR d h em t m d' h' em' t' a). Qed.
Print Assumptions C81_roles.

(** ** Data messages *)

(* Two OTRv3 data messages with one authenticator, both delivered, by one session or by two, are the same message, up to
   the old MAC keys that they publish, and were checked with the same key; or somebody found a clash in the MAC. *)
Theorem C81_data3 : forall C d st em t m d' st' em' t' m', enabled d -> enabled d' ->
  delivered C d st em t -> delivered C d' st' em' t' ->
  em_message em = MData m -> em_message em' = MData m' -> d3_authenticator m = d3_authenticator m' ->
  exists key key', mac_key_of C st em key /\ mac_key_of C st' em' key' /\
    (key = key' /\ same_header em em' /\ same_data3 m m' \/
     clash (fun x => hmac_sha1 C (fst x) (snd x)) (key, encode_authenticator_data (em_sender em) (em_receiver em) m)
       (key', encode_authenticator_data (em_sender em') (em_receiver em') m')).
Proof. exact one_message3. Qed.
Print Assumptions C81_data3.
(* OTRv4 *)
Theorem C81_data4 : forall C d st em t m d' st' em' t' m', enabled d -> enabled d' ->
  delivered C d st em t -> delivered C d' st' em' t' ->
  em_message em = MData4 m -> em_message em' = MData4 m' -> d4_authenticator m = d4_authenticator m' ->
  exists key key', mac_key_of C st em key /\ mac_key_of C st' em' key' /\
    (key = key' /\ same_header em em' /\ same_data4 m m' \/
     clash (kdf C 64 x18) (key ++ encode_authenticator_data4 (em_sender em) (em_receiver em) m)
       (key' ++ encode_authenticator_data4 (em_sender em') (em_receiver em') m')).
Proof. exact one_message4. Qed.
Print Assumptions C81_data4.

Definition kind_of (b : bytes) : option N :=
  match parse toy b with
  | Ok (MsgEncoded em) => match em_message em with MAuthR _ => Some 1 | MAuthI _ => Some 2 | MData _ => Some 3 | MData4 _ => Some 4 | _ => None end
  | _ => None
  end.
Lemma whole s b k : match_fragment b = false -> kind_of b = Some k -> exists em, carries toy s b em /\
  match em_message em with MAuthR _ => k = 1 | MAuthI _ => k = 2 | MData _ => k = 3 | MData4 _ => k = 4 | _ => False end.
Proof.
  unfold kind_of. intros F K. destruct (parse toy b) as [[| | | |em]| |] eqn:P; try discriminate. exists em.
  split; [exists b; split; [left; auto|exact P]|]. destruct (em_message em); congruence.
Qed.
Example C81_ex : curve_ok toy /\ 0 < c_dh_g toy /\ 0 < c_dh3_p toy /\ mpi_range (c_dh3_p toy) /\ names_fit xs_alice /\ names_fit xs_bob /\
  (exists em m, begun toy xs_alice (fst za_end1) em 400 /\ em_message em = MAuthR m) /\
  (exists em a, begun toy xs_bob (fst zb_end1) em 301 /\ em_message em = MAuthI a) /\
  enabled xs_bob /\
  (exists em m, delivered toy xs_bob (state_of yb_s 301) em 301 /\ em_message em = MData m) /\
  (exists em m, delivered toy xs_bob (state_of zb_s 301) em 301 /\ em_message em = MData4 m).
Proof.
  split; [exact toy_curve_ok|]. split; [reflexivity|]. split; [reflexivity|]. split; [vm_compute; reflexivity|].
  split; [split; vm_compute; reflexivity|]. split; [split; vm_compute; reflexivity|].
  split.
  { destruct (whole (snd za_end1) auth_r 1) as (em & CA & K); [vm_compute; reflexivity..|]. exists em.
    destruct (em_message em) eqn:M; try (discriminate || contradiction). eexists. split; [|reflexivity]. do 5 eexists. split; [exact za_run1|]. split; [exact CA|exact oz_a]. }
  split.
  { destruct (whole (snd zb_end1) auth_i 2) as (em & CA & K); [vm_compute; reflexivity..|]. exists em.
    destruct (em_message em) eqn:M; try (discriminate || contradiction). eexists. split; [|reflexivity]. do 5 eexists. split; [exact zb_run1|]. split; [exact CA|exact oz_b]. }
  split; [apply (proj2 xs_enabled)|]. split.
  { destruct (whole yb_s ya_text 3) as (em & CA & K); [vm_compute; reflexivity..|]. exists em.
    destruct (em_message em) eqn:M; try (discriminate || contradiction). eexists. split; [|reflexivity]. do 7 eexists. split; [exact yb_run|].
    split; [reflexivity|]. split; [exact CA|]. split; [exact yb_reads|]. left. eauto. }
  { destruct (whole zb_s za_text 4) as (em & CA & K); [vm_compute; reflexivity..|]. exists em.
    destruct (em_message em) eqn:M; try (discriminate || contradiction). eexists. split; [|reflexivity]. do 7 eexists. split; [exact zb_run|].
    split; [reflexivity|]. split; [exact CA|]. split; [exact zb_reads|]. left. eauto. }
Qed.
