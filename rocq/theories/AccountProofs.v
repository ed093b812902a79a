(* Proofs about accounts: instance tags, restoring the profile, sessions by address. *)
From Coq Require Import Lia ZifyN ZifyNat.
From Verif Require Import Base BaseLemmas Types Crypto CryptoProofs Encoding EncodingProofs ClientProfile ClientProfileProofs WireLemmas
  DAKE Session SpecWire SpecSession SessionProofs SessionInvProofs SessionSendProofs Account SpecAccount.
Local Open Scope N_scope.

(** ** Instance tags *)

Lemma random_tag_legal draws t : random_tag draws = Some t -> 256 <= t < 4294967296.
Proof.
  induction draws as [|d r IH]; cbn [random_tag]; [discriminate|].
  destruct (INSTANCE_MIN_VALID <=? be_val (fix_len 4 d)) eqn:E; [|exact IH].
  intros [= <-]. apply N.leb_le in E. unfold INSTANCE_MIN_VALID in E. split; [exact E|].
  pose proof (be_val_bound (fix_len 4 d)) as B. rewrite fix_len_length in B. exact B.
Qed.
Lemma random_tag_first draws t : random_tag draws = Some t <->
  exists before d after, draws = before ++ d :: after /\ t = be_val (fix_len 4 d) /\ 256 <= t /\
    Forall (fun x => be_val (fix_len 4 x) < 256) before.
Proof.
  split.
  - induction draws as [|d r IH]; cbn [random_tag]; [discriminate|].
    destruct (INSTANCE_MIN_VALID <=? be_val (fix_len 4 d)) eqn:E.
    + intros [= <-]. apply N.leb_le in E. exists [], d, r. repeat split; [exact E|constructor].
    + intros H. destruct (IH H) as (b & x & a & -> & A & B & F). exists (d :: b), x, a.
      repeat split; try assumption. constructor; [|assumption]. apply N.leb_gt in E. exact E.
  - intros (b & d & a & -> & -> & L & F). induction F as [|x b L' F IH]; cbn [app random_tag].
    + unfold INSTANCE_MIN_VALID. apply N.leb_le in L. now rewrite L.
    + unfold INSTANCE_MIN_VALID. apply N.leb_gt in L'. rewrite L'. exact IH.
Qed.
Lemma random_tag_ends draws : (exists d, In d draws /\ 256 <= be_val (fix_len 4 d)) -> random_tag draws <> None.
Proof.
  induction draws as [|d r IH]; cbn [random_tag]; [intros (d & [] & _)|].
  intros (x & [->|I] & L); unfold INSTANCE_MIN_VALID in *.
  - apply N.leb_le in L. now rewrite L.
  - destruct (256 <=? _); [discriminate|]. apply IH. eauto.
Qed.

Section WithCrypto.
Context (C : Crypto).

(** ** The profile *)

Lemma sign_range k m sg : eddsa_sign C k m = Ok sg -> ed_sig_ok sg.
Proof.
  unfold eddsa_sign. intros H. apply bind_ok in H. destruct H as (b & _ & H). injection H as <-.
  split; cbn [edsig_R edsig_s]; [apply pt_encode_length|]. unfold scalar_bytes. apply le_bytes_length.
Qed.
Lemma profile_sign_wire p identity legacy nonce payload :
  legal_tag (cp_owner p) -> cp_owner p < 4294967296 -> point_wire_ok C (cp_identity p) -> point_wire_ok C (cp_forging p) ->
  versions_ok (cp_versions p) -> i64_range (cp_expiration p) ->
  (forall k, cp_legacy p = Some k -> dsa_pub_ok C k) ->
  (forall k m, legacy = Some k -> dsa_sig_ok C (dsa_sign C k nonce m)) ->
  profile_sign C p identity legacy nonce = Ok payload -> payload_wire_ok C payload.
Proof.
  intros O O' I F V X L S H. apply signed_profile in H as A. unfold profile_sign in H.
  destruct (negb _); [discriminate|]. destruct (negb _); [discriminate|].
  set (f5 := [FOwnerTag _; _; _; _; _]) in H.
  assert (F5 : Forall (field_ok C) f5).
  { unfold f5. repeat (apply Forall_cons || apply Forall_nil); cbn [field_ok]; try assumption.
    destruct O as [O|O]; [left; exact O|right; auto]. }
  assert (L5 : length f5 = 5%nat) by reflexivity. clearbody f5.
  apply bind_ok in H. destruct H as (sg & SG & H). apply sign_range in SG.
  destruct (payload_validate C _); try discriminate. injection H as <-. cbn [pl_fields pl_signature] in *.
  split; [|split; [|split; [exact SG|eauto]]].
  - destruct (cp_legacy p) as [pk|]; [|exact F5]. destruct legacy as [kp|]; [|exact F5].
    apply Forall_app. split; [apply Forall_app; split; [exact F5|]|].
    + constructor; [|constructor]. cbn. auto.
    + constructor; [|constructor]. cbn [field_ok]. auto.
  - clear - L5. destruct (cp_legacy p); [destruct legacy|]; cbn [pl_fields]; rewrite ?app_length; cbn [length]; rewrite L5; reflexivity.
Qed.

Lemma profile_new_ok now p q : profile_new C now p = Ok q -> q = p /\ legal_tag (cp_owner p) /\
  pt_verify C (cp_identity p) = true /\ pt_verify C (cp_forging p) = true.
Proof.
  unfold profile_new. intros H. apply bind_ok in H. destruct H as (t & T & H). apply tag_verify_ok in T.
  apply bind_ok in H. destruct H as (? & I & H). apply bind_ok in H. destruct H as (? & F & H).
  apply bind_ok in H. destruct H as (? & _ & H). destruct (_ || _); [discriminate|]. injection H as <-.
  unfold of_bool in I, F. destruct (pt_verify C (cp_identity p)); [|discriminate].
  destruct (pt_verify C (cp_forging p)); [|discriminate]. repeat split. exact (proj2 T).
Qed.

Lemma decode_profile_valid b p : decode_profile C b = Ok p -> exists cp, payload_validate C p = Ok cp.
Proof.
  unfold decode_profile. intros H. apply bind_ok in H. destruct H as ((q & rest) & R & H).
  apply bind_ok in H. destruct H as (? & _ & H). injection H as <-. now apply read_payload_ok in R.
Qed.

(* a profile that was generated: what is in it, and what is stored *)
Lemma generated_content h now tag nonce p stored :
  generate_clientprofile C h now tag nonce = Ok (p, stored) ->
  legal_tag tag /\ cp_owner p = tag /\ cp_identity p = ed_public (ah_identity h) /\ cp_forging p = ah_forging h /\
  cp_versions p = (V4 :: match ah_legacy h with Some _ => [V3] | None => [] end) /\
  cp_expiration p = Z.of_N (now + DEFAULT_EXPIRATION) /\ cp_legacy p = option_map dsa_pk (ah_legacy h) /\
  exists payload, profile_sign C p (ah_identity h) (ah_legacy h) nonce = Ok payload /\ stored = write_payload payload /\
    i64_range (cp_expiration p).
Proof.
  unfold generate_clientprofile. cbv zeta. destruct (9223372036854775807 <? _)%Z eqn:B; [discriminate|].
  set (p0 := mkProfile _ _ _ _ _ _). destruct (profile_new C now p0) as [q|x|] eqn:N; try discriminate.
  intros H. apply profile_new_ok in N. destruct N as (-> & L & _). apply bind_ok in H.
  destruct H as (payload & S & H). injection H as <- <-. repeat split; [exact L|].
  exists payload. split; [exact S|]. split; [reflexivity|]. unfold i64_range, p0. cbn [cp_expiration].
  apply Z.ltb_ge in B. lia.
Qed.
Lemma generated_restores h now tag nonce p stored : host_keys_ok C h -> tag < 4294967296 ->
  generate_clientprofile C h now tag nonce = Ok (p, stored) ->
  forall i f l, restore_clientprofile C (mkAccountHost stored i f l) = Ok p.
Proof.
  intros (KI & KF & KL) T H i f l. apply generated_content in H.
  destruct H as (LT & O & I & F & V & X & L & payload & S & -> & R).
  apply profile_sign_wire in S as W; [| | | | | | | | ].
  - unfold restore_clientprofile, decode_profile. cbn [ah_profile].
    rewrite <- (app_nil_r (write_payload payload)), read_payload_write by assumption. cbn [bind done].
    apply signed_profile in S. now apply payload_validate_iff.
  - now rewrite O.
  - now rewrite O.
  - now rewrite I.
  - now rewrite F.
  - rewrite V. split; [|destruct (ah_legacy h); cbn; lia]. destruct (ah_legacy h); repeat (apply Forall_cons || apply Forall_nil); auto.
  - exact R.
  - rewrite L. intros k. destruct (ah_legacy h); cbn; [|discriminate]. intros [= <-]. exact (proj1 KL).
  - intros k m E. rewrite E in KL. exact (proj2 KL nonce m).
Qed.

Lemma restart h now draws nonce name p a h' : host_keys_ok C h ->
  account_new C h now draws nonce name p = Some (Ok (a, h')) ->
  forall now' draws' nonce' name' p',
  account_new C h' now' draws' nonce' name' p'
  = Some (Ok (mkAccount p' (ac_tag a) name' (ac_profile a) [], h')).
Proof.
  intros K H now' draws' nonce' name' p'. unfold account_new in H.
  destruct (restore_clientprofile C h) as [q|x|] eqn:R; [| |discriminate].
  - injection H as <- <-. unfold account_new. rewrite R. reflexivity.
  - destruct (random_tag draws) as [t|] eqn:T; [|discriminate]. apply random_tag_legal in T.
    injection H as H. apply bind_ok in H. destruct H as ((q & stored) & G & H). injection H as <- <-.
    unfold account_new. rewrite (generated_restores _ _ _ _ _ _ K (proj2 T) G). reflexivity.
Qed.
Lemma account_profile h now draws nonce name p a h' :
  account_new C h now draws nonce name p = Some (Ok (a, h')) ->
  ac_sessions a = [] /\ ac_policy a = p /\ ac_account a = name /\ ac_tag a = cp_owner (ac_profile a) /\
  ah_identity h' = ah_identity h /\ ah_forging h' = ah_forging h /\ ah_legacy h' = ah_legacy h /\
  ((h' = h /\ restore_clientprofile C h = Ok (ac_profile a))
   \/ (256 <= ac_tag a /\ (forall q, restore_clientprofile C h <> Ok q) /\
       exists t, random_tag draws = Some t /\ generate_clientprofile C h now t nonce = Ok (ac_profile a, ah_profile h'))).
Proof.
  unfold account_new. intros H. destruct (restore_clientprofile C h) as [q|x|] eqn:R; [| |discriminate].
  - injection H as <- <-. cbn. auto 10.
  - destruct (random_tag draws) as [t|] eqn:T; [|discriminate]. apply random_tag_legal in T as L.
    injection H as H. apply bind_ok in H. destruct H as ((q & stored) & G & H). injection H as <- <-.
    cbn. repeat split. right. apply generated_content in G as D. destruct D as (_ & -> & _).
    split; [apply L|]. split; [discriminate|]. eauto.
Qed.

(** ** Sessions by address *)

Lemma find_store_same x s l : find_session x (store_session x s l) = Some s.
Proof.
  induction l as [|[a y] l IH]; cbn; [now rewrite bytes_eqb_refl|].
  destruct (bytes_eqb a x) eqn:E; cbn; rewrite E; [reflexivity|exact IH].
Qed.
Lemma find_store_other x y s l : y <> x -> find_session y (store_session x s l) = find_session y l.
Proof.
  intros N. apply not_eq_sym, bytes_eqb_neq in N. induction l as [|[a z] l IH]; cbn; [now rewrite N|].
  destruct (bytes_eqb a x) eqn:E; cbn.
  - apply bytes_eqb_eq in E. subst a. now rewrite N.
  - destruct (bytes_eqb a y); [reflexivity|exact IH].
Qed.
Lemma on_session_other A a x (f : session -> effect session A) a' out r y : on_session a x f = (a', out, r) -> y <> x ->
  account_session a' y = account_session a y.
Proof.
  unfold on_session. destruct (f _) as [[s' o] r']. intros H N. injection H as <- _ _.
  unfold account_session, with_sessions, details_for. cbn. now rewrite find_store_other.
Qed.

(* expiring the sessions of a list with different addresses *)
Lemma expire_sessions_ok es timeout l : forall l' out r,
  expire_sessions C es timeout l = (l', out, r) -> r <> Panic ->
  (forall x s, In (x, s) l -> sinv s) ->
  NoDup (map fst l) ->
  r = Ok tt /\ map fst l' = map fst l /\
  forall x s, find_session x l = Some s -> exists s' before o after, find_session x l' = Some s' /\
    out = before ++ o ++ after /\ expire C (es x) s timeout = (s', o, Ok tt).
Proof.
  induction l as [|[a s] l IH]; cbn [expire_sessions]; intros l' out r H NP I ND.
  - injection H as <- <- <-. split; [reflexivity|]. split; [reflexivity|]. discriminate.
  - destruct (expire C (es a) s timeout) as [[s' o] q] eqn:E.
    assert (Q : q = Ok tt).
    { destruct q as [[]|x|]; [reflexivity| |].
      - apply expire_total in E; [exact E|discriminate].
      - apply pair3 in H. destruct H as (_ & _ & <-). contradiction. }
    subst q. destruct (expire_sessions C es timeout l) as [[r' o'] x'] eqn:R. injection H as <- <- <-.
    cbn in ND. inversion ND as [|? ? NI ND']. subst.
    destruct (IH _ _ _ eq_refl NP) as (-> & M & F); [intros; eapply I; right; eassumption|assumption|].
    split; [reflexivity|]. split; [cbn; now rewrite M|]. intros x s0. cbn [find_session].
    destruct (bytes_eqb a x) eqn:AX.
    + apply bytes_eqb_eq in AX. subst a. intros [= <-]. exists s', [], o, o'. auto.
    + intros H. destruct (F _ _ H) as (s'' & b & o'' & af & A & -> & B). exists s'', (o ++ b), o'', af.
      repeat split; try assumption. now rewrite <- !app_assoc.
Qed.
Lemma find_in x s l : find_session x l = Some s -> In (x, s) l.
Proof.
  induction l as [|[a y] l IH]; cbn; [discriminate|]. destruct (bytes_eqb a x) eqn:E.
  - apply bytes_eqb_eq in E. intros [= ->]. subst. auto.
  - auto.
Qed.
Lemma find_none x l : find_session x l = None <-> ~ In x (map fst l).
Proof.
  induction l as [|[a y] l IH]; cbn; [tauto|]. destruct (bytes_eqb a x) eqn:E.
  - apply bytes_eqb_eq in E. split; [discriminate|tauto].
  - apply bytes_eqb_neq in E. rewrite IH. tauto.
Qed.
Lemma in_find x s l : NoDup (map fst l) -> In (x, s) l -> find_session x l = Some s.
Proof.
  induction l as [|[a y] l IH]; cbn; [intros _ []|]. intros ND [E|I].
  - injection E as -> ->. now rewrite bytes_eqb_refl.
  - inversion ND as [|? ? NI ND']. subst. destruct (bytes_eqb a x) eqn:E; [|auto].
    apply bytes_eqb_eq in E. subst a. destruct NI. now apply in_map with (f := fst) in I.
Qed.
Lemma store_keys x s l : NoDup (map fst l) -> NoDup (map fst (store_session x s l)).
Proof.
  assert (K : forall y, In y (map fst (store_session x s l)) -> y = x \/ In y (map fst l)).
  { induction l as [|[a z] l IH]; cbn; [intuition|]. intros y. destruct (bytes_eqb a x); cbn; [tauto|].
    intros [->|I]; [tauto|]. destruct (IH _ I); tauto. }
  clear K. induction l as [|[a z] l IH]; cbn; intros ND.
  - constructor; [intros []|constructor].
  - inversion ND as [|? ? NI ND']. subst. destruct (bytes_eqb a x) eqn:E; cbn; [constructor; assumption|].
    constructor; [|auto]. apply bytes_eqb_neq in E. rewrite <- find_none in *. now rewrite find_store_other.
Qed.

Lemma account_inv a0 h a : account_run C a0 h a -> ac_sessions a0 = [] ->
  (forall x, details_for a x = details_for a0 x) /\ NoDup (map fst (ac_sessions a)) /\
  forall x, exists hs, concerns x h hs /\ history C (details_for a0 x) hs (account_session a x) /\
    (hs = [] <-> find_session x (ac_sessions a) = None).
Proof.
  intros R E. induction R as [|h a es o a' out r R IH CA NP].
  - split; [reflexivity|]. rewrite E. split; [constructor|]. intros x. exists []. split; [constructor|].
    unfold account_session. rewrite E. cbn. split; [constructor|tauto].
  - destruct IH as (D & ND & IH). destruct o as [x o|timeout]; cbn [account_call] in CA.
    + unfold on_session in CA. destruct (call C (es x) (account_session a x) o) as [[s' q] r'] eqn:CL.
      injection CA as <- -> ->. split; [exact D|]. split; [now apply store_keys|].
      intros y. destruct (IH y) as (hs & CO & HI & EM). destruct (bytes_eqb x y) eqn:XY.
      * apply bytes_eqb_eq in XY. subst y. exists (hs ++ [mkEvent o out r]). split; [now constructor|].
        unfold account_session at 1. cbn. rewrite find_store_same. split; [|split; [now destruct hs|discriminate]].
        eapply run_call; eassumption.
      * apply bytes_eqb_neq in XY. exists hs. split; [now constructor|].
        unfold account_session, details_for in *. cbn. rewrite find_store_other by congruence. auto.
    + unfold account_expire in CA. destruct (expire_sessions C es timeout (ac_sessions a)) as [[l q] x] eqn:X.
      injection CA as <- -> <-.
      apply expire_sessions_ok in X; [| |intros y s IN|assumption].
      * destruct X as (-> & M & F). split; [exact D|]. cbn. split; [now rewrite M|].
        intros y. destruct (IH y) as (hs & CO & HI & EM).
        destruct (find_session y (ac_sessions a)) as [s|] eqn:FS.
        -- destruct (F _ _ FS) as (s' & b & o & af & FS' & -> & EX).
           exists (hs ++ [mkEvent (OpExpire timeout) o (Ok AnDone)]).
           assert (hs <> []) by (intros ->; discriminate (proj1 EM eq_refl)).
           split; [now constructor|]. unfold account_session in *. cbn. rewrite FS' in *. rewrite FS in HI.
           split; [|split; [now destruct hs|discriminate]].
           eapply run_call; [exact HI| |discriminate]. cbn [call]. rewrite EX. reflexivity.
        -- rewrite (proj2 EM eq_refl) in *. exists []. split; [now constructor|].
           unfold account_session in *. cbn. rewrite FS in HI.
           assert (FN : find_session y l = None) by (apply find_none; rewrite M; now apply find_none).
           rewrite FN. split; [exact HI|tauto].
      * intros ->. now destruct NP.
      * apply in_find in IN; [|assumption]. destruct (IH y) as (hs & _ & HI & _).
        unfold account_session in HI. rewrite IN in HI. now apply history_inv in HI.
Qed.
End WithCrypto.
