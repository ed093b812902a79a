(* Lemmas about one instance and about the table of instances. *)
From Verif Require Import Base BaseLemmas Types Crypto Encoding EncodingProofs Messages Fragment KeyManager DataV3 Ratchet DataV4
  AKE DAKE SMP SMP4 Protocol Session SpecSession.
From Coq Require Import Lia ZifyN ZifyNat.
Local Open Scope N_scope.

Lemma pair3 {A B D} (a a' : A) (b b' : B) (d d' : D) : (a, b, d) = (a', b', d') -> a = a' /\ b = b' /\ d = d'.
Proof. intros H. inversion H. auto. Qed.

(** ** The table *)

Lemma get_set_same t i l : get_inst t (set_inst t i l) = Some i.
Proof.
  induction l as [|[k j] r IH]; cbn [set_inst get_inst].
  - now rewrite N.eqb_refl.
  - destruct (k =? t) eqn:E; cbn [get_inst]; rewrite E; auto.
Qed.
Lemma get_set_other t u i l : t <> u -> get_inst u (set_inst t i l) = get_inst u l.
Proof.
  intros N0. induction l as [|[k j] r IH]; cbn [set_inst get_inst].
  - apply N.eqb_neq in N0. now rewrite N0.
  - destruct (k =? t) eqn:E; cbn [get_inst].
    + apply N.eqb_eq in E. subst k. apply N.eqb_neq in N0. now rewrite N0.
    + destruct (k =? u); auto.
Qed.
Lemma keys_set t i l : map fst (set_inst t i l) =
  if existsb (N.eqb t) (map fst l) then map fst l else map fst l ++ [t].
Proof.
  induction l as [|[k j] r IH]; cbn [set_inst map fst existsb]; [reflexivity|].
  rewrite (N.eqb_sym t k). destruct (k =? t) eqn:E; cbn [map fst]; [reflexivity|].
  rewrite IH. cbn [orb]. now destruct (existsb (N.eqb t) (map fst r)).
Qed.
Lemma in_keys t l : In t (map fst l) <-> get_inst t l <> None.
Proof.
  induction l as [|[k j] r IH]; cbn [map fst get_inst In].
  - split; [easy|congruence].
  - destruct (k =? t) eqn:E.
    + apply N.eqb_eq in E. split; [congruence|auto].
    + apply N.eqb_neq in E. rewrite <- IH. split; [now intros [? | ?]|auto].
Qed.
Lemma existsb_key t (l : list N) : existsb (N.eqb t) l = true <-> In t l.
Proof.
  rewrite existsb_exists. split.
  - intros (x & I & E). apply N.eqb_eq in E. now subst.
  - intros I. exists t. now rewrite N.eqb_refl.
Qed.
Lemma nodup_set t i l : NoDup (map fst l) -> NoDup (map fst (set_inst t i l)).
Proof.
  rewrite keys_set. destruct (existsb (N.eqb t) (map fst l)) eqn:E; [auto|]. intros ND.
  assert (NI : ~ In t (map fst l)) by (rewrite <- existsb_key; congruence).
  clear E. induction (map fst l) as [|x r IH]; cbn [app].
  - constructor; [easy|constructor].
  - inversion ND; subst. constructor.
    + rewrite in_app_iff. cbn [In]. intros [? | [? | []]]; [contradiction|]. subst. apply NI. now left.
    + apply IH; [assumption|]. intros ?. apply NI. now right.
Qed.

(* every entry of the table satisfies P *)
Definition all_inst (P : N -> instance -> Prop) (l : instances) : Prop := Forall (fun '(t, i) => P t i) l.
Lemma all_get (P : N -> instance -> Prop) l t i : all_inst P l -> get_inst t l = Some i -> P t i.
Proof.
  intros A. induction l as [|[k j] r IH]; cbn [get_inst]; [easy|].
  inversion A as [|? ? A1 A2]; subst. destruct (k =? t) eqn:E.
  - apply N.eqb_eq in E. subst k. now intros [= ->].
  - auto.
Qed.
Lemma all_set (P : N -> instance -> Prop) l t i : all_inst P l -> P t i -> all_inst P (set_inst t i l).
Proof.
  intros A Pi. induction l as [|[k j] r IH]; cbn [set_inst].
  - now repeat constructor.
  - inversion A as [|? ? A1 A2]; subst. destruct (k =? t) eqn:E.
    + apply N.eqb_eq in E. subst k. now constructor.
    + constructor; [assumption|]. now apply IH.
Qed.
Lemma get_in t l i : get_inst t l = Some i -> In (t, i) l.
Proof.
  induction l as [|[k j] r IH]; cbn [get_inst]; [easy|]. destruct (k =? t) eqn:E.
  - apply N.eqb_eq in E. subst. intros [= ->]. now left.
  - right. auto.
Qed.
Lemma in_get t l i : NoDup (map fst l) -> In (t, i) l -> get_inst t l = Some i.
Proof.
  induction l as [|[k j] r IH]; cbn [map fst get_inst In]; [easy|].
  intros ND. inversion ND as [|? ? NI ND']; subst. intros [[= -> ->] | I].
  - now rewrite N.eqb_refl.
  - destruct (k =? t) eqn:E; [|auto]. apply N.eqb_eq in E. subst.
    exfalso. apply NI. now apply (in_map fst) in I.
Qed.

(** ** Injected messages *)

Lemma map_res_forall2 {A B} (f : A -> res B) l r :
  map_res f l = Ok r -> Forall2 (fun a b => f a = Ok b) l r.
Proof.
  revert r. induction l as [|a l IH]; cbn [map_res]; intros r H.
  - injection H as <-. constructor.
  - apply bind_ok in H. destruct H as (b & E & H). apply bind_ok in H. destruct H as (bs & E' & H).
    injection H as <-. constructor; auto.
Qed.
Lemma map_res_no_err {A B} (f : A -> res B) l x :
  (forall a y, f a <> Err y) -> map_res f l <> Err x.
Proof.
  intros F. induction l as [|a l IH]; cbn [map_res]; [easy|].
  destruct (f a) eqn:E; cbn [bind]; [|now destruct (F a e)|easy].
  destruct (map_res f l); cbn [bind]; congruence.
Qed.
Lemma encode_fragment_no_err f x : encode_fragment f <> Err x.
Proof. unfold encode_fragment. destruct (fr_version f); try easy; now destruct (_ || _)%bool. Qed.
Lemma fragment_content_no_err n v s r rnd b x : fragment_content n v s r rnd b <> Err x.
Proof.
  unfold fragment_content. destruct v; try easy;
    repeat match goal with |- context [if ?b then _ else _] => destruct b end; easy.
Qed.
Lemma payloads_no_err d e r v b x : payloads d e r v b <> Err x.
Proof.
  unfold payloads. destruct (Nat.leb _ _); [easy|].
  destruct (fragment_content _ _ _ _ _ _) eqn:E; cbn [bind]; [|now apply fragment_content_no_err in E|easy].
  apply map_res_no_err. intros. apply encode_fragment_no_err.
Qed.
Lemma encode_message_no_err v s r m x : encode_message v s r m <> Err x.
Proof.
  unfold encode_message, serialize_message, write_encoded_message. cbn [em_version em_message em_sender em_receiver].
  destruct v; cbn [encode_version bind]; try easy; destruct m; cbn [type_code bind write_content];
    try destruct (Nat.eqb _ _); easy.
Qed.
Lemma inject_no_err d e i v r m x : inject d e i v r m <> Err x.
Proof.
  unfold inject. destruct (negb _); [easy|].
  destruct (encode_message _ _ _ _) eqn:E; cbn [bind]; [|now apply encode_message_no_err in E|easy].
  apply payloads_no_err.
Qed.
Lemma payloads_transported d e r v m b ps :
  encode_message v (de_tag d) r m = Ok b -> payloads d e r v b = Ok ps -> transported d e r v m ps.
Proof.
  intros E H. exists b. split; [assumption|]. unfold payloads in H.
  destruct (Nat.leb (length b) (ev_message_size e)) eqn:L.
  - apply Nat.leb_le in L. injection H as <-. now left.
  - apply Nat.leb_gt in L. right. split; [assumption|]. apply bind_ok in H. destruct H as (fs & F & H).
    exists fs. split; [assumption|]. now apply map_res_forall2.
Qed.
Lemma inject_transported d e i v r m ps :
  inject d e i v r m = Ok ps -> transported d e (in_receiver i) v m ps.
Proof.
  unfold inject. destruct (negb _); [easy|]. intros H. apply bind_ok in H. destruct H as (b & E & H).
  eapply payloads_transported; eassumption.
Qed.
Lemma injecting_inv {A} b a r (x : A) i out y :
  injecting b a r x = (i, out, y) ->
  (r = Ok out /\ i = a /\ y = Ok x) \/ (exists z, r = Err z /\ i = a /\ out = [] /\ y = Err z)
  \/ (r = Panic /\ y = Panic).
Proof.
  unfold injecting. destruct r; intros H; apply pair3 in H; destruct H as (<- & <- & <-); eauto 10.
Qed.

(** ** How the status of an instance changes *)

(* the status stays, or a session starts, or an encrypted session is finished by the peer *)
Definition moves (i i' : instance) (r : res user_message) : Prop :=
  in_status i' = in_status i
  \/ (in_status i' = Encrypted /\ r = Ok (UMSessionStarted (in_receiver i)))
  \/ (in_status i = Encrypted /\ in_status i' = Finished /\
      exists c, r = Ok (UMSessionFinished (in_receiver i) c)).

Section WithCrypto.
Context (C : Crypto).

Lemma secure_status d e i t m i' : secure C d e i t m = Ok i' ->
  in_status i' = Encrypted /\ in_receiver i' = in_receiver i.
Proof.
  unfold secure. intros H. apply bind_ok in H. destruct H as (s & E & H).
  destruct (status_eqb (p_status s) Encrypted) eqn:S; [|easy]. injection H as <-.
  unfold in_status. cbn [in_state set_state in_receiver]. now destruct (p_status s).
Qed.

Lemma prepare_status s ig c rnd s' m : p_prepare C s ig c rnd = Ok (s', m) -> p_status s' = p_status s.
Proof.
  destruct s; cbn [p_prepare]; intros H; try easy.
  - now injection H as <- <-.
  - apply bind_ok in H. destruct H as ([x k'] & _ & H). now injection H as <- <-.
  - apply bind_ok in H. destruct H as ([x k'] & _ & H). now injection H as <- <-.
Qed.
Lemma prepare_tlv_status e s t s' m : prepare_tlv C e s t = Ok (s', m) -> p_status s' = p_status s.
Proof. unfold prepare_tlv. intros H. apply bind_ok in H. destruct H as (w & _ & H). eapply prepare_status, H. Qed.

Lemma after_decrypt_status s their r s' x :
  after_decrypt s their r = (s', x) ->
  s' = s \/ (s' = PFin /\ exists c, x = Ok (ConfidentialFinished c)).
Proof.
  unfold after_decrypt. destruct r as [b|z|]; try (intros H; injection H as <- <-; auto).
  destruct (parse_message b) as [[c ts|c]|z|]; intros H; injection H as <- <-; eauto.
Qed.
(* handling a data message: the status stays, unless an encrypted session is finished *)
Lemma handle3_status s m auth rnd s' x : p_handle3 C s m auth rnd = (s', x) ->
  p_status s' = p_status s /\ (forall c, x <> Ok (ConfidentialFinished c) \/ s' = PFin)
  \/ (p_status s = Encrypted /\ s' = PFin /\ exists c, x = Ok (ConfidentialFinished c)).
Proof.
  destruct s; cbn [p_handle3].
  - intros H. injection H as <- <-. left. split; [reflexivity|]. now left.
  - destruct (decrypt3 C k m auth rnd) as [k' r]. intros H.
    apply after_decrypt_status in H as A. destruct A as [-> | (-> & c & ->)]; [|right; eauto].
    left. split; [reflexivity|]. intros c. left. intros ->.
    unfold after_decrypt in H. destruct r as [b|z|]; try discriminate.
    destruct (parse_message b) as [[? ?|?]|?|]; discriminate.
  - intros H. injection H as <- <-. left. split; [reflexivity|]. now left.
  - intros H. injection H as <- <-. left. split; [reflexivity|]. now left.
Qed.
Lemma handle4_status s m auth rnd s' x : p_handle4 C s m auth rnd = (s', x) ->
  p_status s' = p_status s /\ (forall c, x <> Ok (ConfidentialFinished c) \/ s' = PFin)
  \/ (p_status s = Encrypted /\ s' = PFin /\ exists c, x = Ok (ConfidentialFinished c)).
Proof.
  destruct s; cbn [p_handle4].
  - intros H. injection H as <- <-. left. split; [reflexivity|]. now left.
  - intros H. injection H as <- <-. left. split; [reflexivity|]. now left.
  - destruct (decrypt4 C d m auth rnd) as [k' r]. intros H.
    apply after_decrypt_status in H as A. destruct A as [-> | (-> & c & ->)]; [|right; eauto].
    left. split; [reflexivity|]. intros c. left. intros ->.
    unfold after_decrypt in H. destruct r as [b|z|]; try discriminate.
    destruct (parse_message b) as [[? ?|?]|?|]; discriminate.
  - intros H. injection H as <- <-. left. split; [reflexivity|]. now left.
Qed.

Lemma smp_finish_moves d e i0 i sender reply report i' out r :
  smp_finish C d e i0 i sender reply report = (i', out, r) -> r <> Panic ->
  in_status i' = in_status i /\ in_receiver i' = in_receiver i.
Proof.
  unfold smp_finish. destruct reply as [[t|]|x|].
  - destruct (prepare_tlv C e (in_state i) t) as [[s m]|x|] eqn:P.
    + apply prepare_tlv_status in P. destruct (inject _ _ _ _ _ _) as [o|x|].
      * destruct report; intros H NP; apply pair3 in H; destruct H as (<- & <- & <-); try easy;
          unfold in_status; cbn [in_state set_state in_receiver]; auto.
      * intros H NP. apply pair3 in H. destruct H as (<- & <- & <-).
        unfold in_status. cbn [in_state set_state in_receiver]. auto.
      * intros H NP. apply pair3 in H. destruct H as (<- & <- & <-). easy.
    + intros H NP. apply pair3 in H. destruct H as (<- & <- & <-). auto.
    + intros H NP. apply pair3 in H. destruct H as (<- & <- & <-). easy.
  - destruct report; intros H NP; apply pair3 in H; destruct H as (<- & <- & <-); try easy; auto.
  - intros H NP. apply pair3 in H. destruct H as (<- & <- & <-). auto.
  - intros H NP. apply pair3 in H. destruct H as (<- & <- & <-). easy.
Qed.

Lemma data_error_inst i ig x i' out r : data_error i ig x = (i', out, r) -> i' = i.
Proof.
  unfold data_error. destruct x; try (intros H; apply pair3 in H; destruct H as (<- & <- & <-); reflexivity).
Qed.

Ltac fin3 H := apply pair3 in H; destruct H as (<- & <- & <-).

Lemma data3_moves d e i sd rc m i' out r :
  inst_data3 C d e i sd rc m = (i', out, r) -> r <> Panic ->
  moves i i' r /\ in_receiver i' = in_receiver i.
Proof.
  unfold inst_data3. destruct (p_handle3 C _ _ _ _) as [s x] eqn:H3. apply handle3_status in H3.
  intros H NP. destruct x as [[content tlvs|content]|x|].
  - destruct H3 as [[S _] | (_ & _ & c & ?)]; [|discriminate].
    destruct (existsb is_smp3_tlv tlvs); [|fin3 H; unfold moves, in_status; cbn [in_state set_state in_receiver]; auto].
    destruct (single_smp is_smp3_tlv tlvs) as [t|z|].
    + destruct s as [|our their k smp|our their k smp|];
        try (fin3 H; unfold moves, in_status; cbn [in_state set_state in_receiver]; now auto).
      destruct (smp_handle _ _ _ _ _) as [smp' reply].
      apply smp_finish_moves in H; [|assumption]. destruct H as [H1 H2].
      rewrite H2. split; [left|reflexivity]. rewrite H1. exact S.
    + fin3 H; unfold moves, in_status; cbn [in_state set_state in_receiver]; auto.
    + now fin3 H.
  - fin3 H. destruct H3 as [[S A] | (S & -> & _)].
    + destruct (A content) as [? | ->]; [congruence|].
      split; [|reflexivity]. left. exact S.
    + split; [|reflexivity]. right. right. split; [exact S|]. split; [reflexivity|eauto].
  - apply data_error_inst in H. subst i'. destruct H3 as [[S _] | (_ & _ & c & ?)]; [|discriminate].
    split; [|reflexivity]. left. exact S.
  - now fin3 H.
Qed.

Lemma data4_moves d e i sd rc m i' out r :
  inst_data4 C d e i sd rc m = (i', out, r) -> r <> Panic ->
  moves i i' r /\ in_receiver i' = in_receiver i.
Proof.
  unfold inst_data4. destruct (data4_validate C m) as [u|x|]; intros H NP;
    [|fin3 H; unfold moves; auto|now fin3 H].
  revert H. destruct (p_handle4 C _ _ _ _) as [s x] eqn:H3. apply handle4_status in H3.
  intros H. destruct x as [[content tlvs|content]|x|].
  - destruct H3 as [[S _] | (_ & _ & c & ?)]; [|discriminate].
    destruct (existsb is_smp4_tlv tlvs); [|fin3 H; unfold moves, in_status; cbn [in_state set_state in_receiver]; auto].
    destruct (single_smp is_smp4_tlv tlvs) as [t|z|].
    + destruct s as [|our their k smp|our their k smp|];
        try (fin3 H; unfold moves, in_status; cbn [in_state set_state in_receiver]; now auto).
      destruct (smp4_handle _ _ _ _ _) as [smp' reply].
      apply smp_finish_moves in H; [|assumption]. destruct H as [H1 H2].
      rewrite H2. split; [left|reflexivity]. rewrite H1. exact S.
    + fin3 H; unfold moves, in_status; cbn [in_state set_state in_receiver]; auto.
    + now fin3 H.
  - fin3 H. destruct H3 as [[S A] | (S & -> & _)].
    + destruct (A content) as [? | ->]; [congruence|].
      split; [|reflexivity]. left. exact S.
    + split; [|reflexivity]. right. right. split; [exact S|]. split; [reflexivity|eauto].
  - apply data_error_inst in H. subst i'. destruct H3 as [[S _] | (_ & _ & c & ?)]; [|discriminate].
    split; [|reflexivity]. left. exact S.
  - now fin3 H.
Qed.

Ltac inj3 H := apply injecting_inv in H;
  destruct H as [(_ & -> & ->) | [(? & E0 & _) | (_ & ->)]]; [|now apply inject_no_err in E0|congruence].
Ltac same := split; [left; reflexivity|reflexivity].

Lemma initiate_moves d e i v i' out r :
  inst_initiate C d e i v = (i', out, r) -> r <> Panic ->
  in_state i' = in_state i /\ in_receiver i' = in_receiver i /\ in_assembler i' = in_assembler i.
Proof.
  unfold inst_initiate. intros H NP. destruct v; try (fin3 H; congruence).
  - destruct (ake_initiate C _ _) as [[st m]|x|]; [inj3 H; auto|fin3 H; auto|fin3 H; congruence].
  - destruct (dake_initiate C _ _ _) as [st [m|x|]]; [inj3 H; auto|fin3 H; auto|fin3 H; congruence].
Qed.

Lemma handle_moves d e i em i' out r :
  inst_handle C d e i em = (i', out, r) -> r <> Panic ->
  moves i i' r /\ in_receiver i' = in_receiver i.
Proof.
  unfold inst_handle. intros H NP.
  destruct (em_version em), (em_message em); try (fin3 H; congruence); try (fin3 H; same).
  - destruct (ake_handle_dhcommit C _ _ _) as [st [a|x|]]; [inj3 H; same|fin3 H; same|fin3 H; congruence].
  - destruct (ake_handle_dhkey C _ _ _ _) as [st [a|x|]]; [inj3 H; same|fin3 H; same|fin3 H; congruence].
  - destruct (ake_handle_reveal C _ _ _ _) as [st [[mat a]|x|]]; [|fin3 H; same|fin3 H; congruence].
    destruct (secure C _ _ _ _ _) as [j|x|] eqn:S; [|fin3 H; same|fin3 H; congruence].
    apply secure_status in S. destruct S as [S1 S2]. inj3 H.
    split; [|exact S2]. right. left. split; [exact S1|reflexivity].
  - destruct (ake_handle_signature C _ _) as [st [mat|x|]]; [|fin3 H; same|fin3 H; congruence].
    destruct (secure C _ _ _ _ _) as [j|x|] eqn:S; [|fin3 H; same|fin3 H; congruence].
    apply secure_status in S. destruct S as [S1 S2]. fin3 H.
    split; [|exact S2]. right. left. split; [exact S1|reflexivity].
  - apply data3_moves in H; [|assumption]. exact H.
  - destruct (dake_handle_identity C _ _ _ _ _ _ _) as [st [a|x|]]; [inj3 H; same|fin3 H; same|fin3 H; congruence].
  - destruct (dake_handle_auth_r C _ _ _ _ _ _ _ _ _) as [st [[mat a]|x|]]; [|fin3 H; same|fin3 H; congruence].
    destruct (inject _ _ _ _ _ _) as [o|x|]; [|fin3 H; same|fin3 H; congruence].
    destruct (secure C _ _ _ _ _) as [j|x|] eqn:S; [|fin3 H; same|fin3 H; congruence].
    apply secure_status in S. destruct S as [S1 S2]. fin3 H.
    split; [|exact S2]. right. left. split; [exact S1|reflexivity].
  - destruct (dake_handle_auth_i C _ _ _ _ _) as [st [mat|x|]]; [|fin3 H; same|fin3 H; congruence].
    destruct (secure C _ _ _ _ _) as [j|x|] eqn:S; [|fin3 H; same|fin3 H; congruence].
    apply secure_status in S. destruct S as [S1 S2]. fin3 H.
    split; [|exact S2]. right. left. split; [exact S1|reflexivity].
  - apply data4_moves in H; [|assumption]. exact H.
Qed.

(** ** The other methods *)

Lemma reset_effect d e i i' out r : inst_reset C d e i = (i', out, r) -> r <> Panic ->
  i' = set_state i PPlain \/ (i' = i /\ exists x, r = Err x).
Proof.
  unfold inst_reset. destruct (p_finish C _ _) as [a|x|]; intros H NP; [|fin3 H; eauto|fin3 H; congruence].
  destruct (status_eqb _ _).
  - destruct a; fin3 H; [congruence|auto].
  - destruct a; [|fin3 H; auto]. inj3 H. auto.
Qed.
Lemma send_moves d e i tg c i' tg' r : inst_send C d e i tg c = (i', tg', r) -> r <> Panic ->
  in_status i' = in_status i /\ in_receiver i' = in_receiver i /\ in_assembler i' = in_assembler i /\
  in_ake i' = in_ake i /\ in_dake i' = in_dake i.
Proof.
  unfold inst_send. destruct (p_prepare C _ _ _ _) as [[s m]|x|] eqn:P; intros H NP.
  - apply prepare_status in P. destruct m; try (fin3 H; congruence).
    + destruct (negb _); [fin3 H; congruence|]. destruct (_ && _ && _); fin3 H; unfold in_status;
        cbn [in_state set_state in_receiver in_assembler in_ake in_dake]; auto.
    + fin3 H. unfold in_status. cbn [in_state set_state in_receiver in_assembler in_ake in_dake]; auto.
    + fin3 H. unfold in_status. cbn [in_state set_state in_receiver in_assembler in_ake in_dake]; auto.
  - fin3 H; auto.
  - fin3 H; congruence.
Qed.

Lemma start_smp_moves d e i sec q i' out r : inst_start_smp C d e i sec q = (i', out, r) -> r <> Panic ->
  in_status i' = in_status i /\ in_receiver i' = in_receiver i.
Proof.
  unfold inst_start_smp. intros H NP. unfold in_status.
  destruct (in_state i) as [|our their k smp|our their k smp|] eqn:S; try (fin3 H; rewrite S; now auto).
  - destruct (smp_initiate _ _ _ _ _ _) as [smp' [t|x|]].
    + destruct (prepare_tlv C e _ t) as [[s m]|x|] eqn:P.
      * apply prepare_tlv_status in P. inj3 H. cbn [in_state set_state in_receiver]. now rewrite P.
      * fin3 H. auto.
      * fin3 H. congruence.
    + fin3 H. auto.
    + fin3 H. congruence.
  - destruct (smp4_initiate _ _ _ _ _) as [smp' [t|x|]].
    + destruct (prepare_tlv C e _ t) as [[s m]|x|] eqn:P.
      * apply prepare_tlv_status in P. inj3 H. cbn [in_state set_state in_receiver]. now rewrite P.
      * fin3 H. auto.
      * fin3 H. congruence.
    + fin3 H. auto.
    + fin3 H. congruence.
Qed.
Lemma abort_smp_moves d e i i' out r : inst_abort_smp C d e i = (i', out, r) -> r <> Panic ->
  in_status i' = in_status i /\ in_receiver i' = in_receiver i.
Proof.
  unfold inst_abort_smp. intros H NP. unfold in_status.
  destruct (in_state i) as [|our their k smp|our their k smp|] eqn:S; try (fin3 H; rewrite S; now auto).
  - destruct (smp_abort smp) as [smp' t].
    destruct (prepare_tlv C e _ t) as [[s m]|x|] eqn:P; try (fin3 H; congruence).
    apply prepare_tlv_status in P. inj3 H. cbn [in_state set_state in_receiver]. now rewrite P.
  - destruct (smp4_abort smp) as [smp' t].
    destruct (prepare_tlv C e _ t) as [[s m]|x|] eqn:P; try (fin3 H; congruence).
    apply prepare_tlv_status in P. inj3 H. cbn [in_state set_state in_receiver]. now rewrite P.
Qed.

(* expire: what happens to one instance *)
Definition expired (now timeout : N) (i : instance) : bool :=
  match in_state i with PEnc4 _ _ d _ => timeout <=? now - dr_created d | _ => false end.
Lemma expire_inst d e i timeout i' out r : inst_expire C d e i timeout = (i', out, r) -> r <> Panic ->
  (expired (ev_now e) timeout i = false /\ i' = i /\ out = [] /\ r = Ok tt)
  \/ (expired (ev_now e) timeout i = true /\ i' = set_state i PFin /\ r = Ok tt /\
      exists our their dr smp m dr', in_state i = PEnc4 our their dr smp /\
        final4 C our their dr (ev_send e) = Ok (m, dr') /\
        transported d e (in_receiver i) V4 (MData4 m) out)
  \/ (exists x, r = Err x /\ i' = i /\ out = [] /\ exists our their dr smp, in_state i = PEnc4 our their dr smp /\
        final4 C our their dr (ev_send e) = Err x).
Proof.
  unfold inst_expire, expired, p_expire, ev_now. intros H NP.
  destruct (in_state i) as [|our their k smp|our their k smp|] eqn:S; try (fin3 H; now left).
  rewrite N.leb_antisym.
  destruct (sr_now (ev_send e) - dr_created k <? timeout) eqn:T.
  - fin3 H. now left.
  - destruct (final4 C our their k (ev_send e)) as [[m dr']|x|] eqn:F; cbn [bind] in H.
    + apply injecting_inv in H. destruct H as [(J & -> & ->) | [(? & E0 & _) | (_ & ->)]];
        [|now apply inject_no_err in E0|congruence].
      right. left. split; [reflexivity|]. split; [reflexivity|]. split; [reflexivity|].
      exists our, their, k, smp, m, dr'. split; [reflexivity|]. split; [assumption|].
      cbn [p_version] in J. apply inject_transported in J. exact J.
    + fin3 H. right. right. eauto 10.
    + fin3 H. congruence.
Qed.

End WithCrypto.
