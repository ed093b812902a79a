(* Sessions: what a call does to the table of instances, and the invariant of the table. *)
From Verif Require Import Base BaseLemmas Types Crypto Encoding EncodingProofs Messages Fragment KeyManager DataV3
  Ratchet DataV4 AKE DAKE SMP SMP4 Protocol Session SpecSession SessionProofs SessionPartyProofs.
From Coq Require Import Lia ZifyN ZifyNat.
Local Open Scope N_scope.

Ltac fin3 H := apply pair3 in H; destruct H as (<- & <- & <-).

Lemma put_details s t i : se_details (put s t i) = se_details s. Proof. reflexivity. Qed.
Lemma get_put_same s t i : get_inst t (se_instances (put s t i)) = Some i.
Proof. apply get_set_same. Qed.
Lemma get_put_other s t u i : t <> u -> get_inst u (se_instances (put s t i)) = get_inst u (se_instances s).
Proof. apply get_set_other. Qed.
Lemma state_put_same s t i : state_of (put s t i) t = in_state i.
Proof. unfold state_of. now rewrite get_put_same. Qed.
Lemma state_put_other s t u i : t <> u -> state_of (put s t i) u = state_of s u.
Proof. intros. unfold state_of. now rewrite get_put_other. Qed.
Lemma entry_state s t : in_state (entry t (se_instances s)) = state_of s t.
Proof. unfold entry, state_of. now destruct (get_inst t (se_instances s)). Qed.
Lemma entry_receiver t l : all_inst (fun t i => in_receiver i = t) l -> in_receiver (entry t l) = t.
Proof.
  intros A. unfold entry. destruct (get_inst t l) eqn:E; [|reflexivity].
  exact (all_get _ _ _ _ A E).
Qed.

Lemma on_entry_inv {A} s t (f : instance -> effect instance A) s' out r :
  on_entry s t f = (s', out, r) -> r <> Panic ->
  exists i', f (entry t (se_instances s)) = (i', out, r) /\ s' = put s t i'.
Proof.
  unfold on_entry. destruct (f _) as [[i' o] x]. intros H NP.
  destruct x; fin3 H; try congruence; eauto.
Qed.
Lemma on_instance_inv {A} s t (f : instance -> effect instance A) s' out r :
  on_instance s t f = (s', out, r) -> r <> Panic ->
  (get_inst t (se_instances s) = None /\ s' = s /\ out = [] /\ r = Err (UnknownInstance t))
  \/ exists i i', get_inst t (se_instances s) = Some i /\ f i = (i', out, r) /\ s' = put s t i'.
Proof.
  unfold on_instance. destruct (get_inst t _) as [i|]; [|intros H _; fin3 H; auto].
  destruct (f i) as [[i' o] x] eqn:F. intros H NP. right. exists i, i'.
  destruct x; fin3 H; try congruence; auto.
Qed.

(* the session after the fragment in the payload has been stored *)
Definition stored (s : session) (p : bytes) : session :=
  if match_fragment p then
    match parse_fragment p with
    | Ok (Some f) =>
        let i := entry (fr_sender f) (se_instances s) in
        put s (fr_sender f) (set_assembler i (fst (assemble (in_assembler i) f)))
    | _ => s
    end
  else s.
Lemma stored_details s p : se_details (stored s p) = se_details s.
Proof. unfold stored. destruct (match_fragment p); [|reflexivity]. now destruct (parse_fragment p) as [[f|]|?|]. Qed.
Lemma stored_state s p t : state_of (stored s p) t = state_of s t.
Proof.
  unfold stored. destruct (match_fragment p); [|reflexivity].
  destruct (parse_fragment p) as [[f|]|?|]; try reflexivity.
  destruct (N.eq_dec (fr_sender f) t) as [<-|NE].
  - rewrite state_put_same. cbn [in_state set_assembler]. apply entry_state.
  - now apply state_put_other.
Qed.
Lemma stored_other s p t :
  (forall f, parse_fragment p = Ok (Some f) -> fr_sender f <> t) \/ match_fragment p = false ->
  get_inst t (se_instances (stored s p)) = get_inst t (se_instances s).
Proof.
  unfold stored. intros [H| ->]; [|reflexivity]. destruct (match_fragment p); [|reflexivity].
  destruct (parse_fragment p) as [[f|]|?|] eqn:E; try reflexivity.
  apply get_put_other. now apply H.
Qed.
Lemma stored_tagged s p : se_tagged (stored s p) = se_tagged s.
Proof. unfold stored. destruct (match_fragment p); [|reflexivity]. now destruct (parse_fragment p) as [[f|]|?|]. Qed.

Section WithCrypto.
Context (C : Crypto).

Lemma parse_fragment_no_err p x : parse_fragment p <> Err x.
Proof.
  unfold parse_fragment, build_fragment, parse_u16.
  destruct (search match_v4 p) as [c|]; [|destruct (search match_v3 p) as [c|]; [|easy]].
  all: destruct (_ <? _); cbn [bind]; [|easy]; destruct (_ <? _); cbn [bind]; [|easy];
    destruct (tag_opt _); [|easy]; destruct (tag_opt _); easy.
Qed.

Lemma receive_split e s p s' out r : receive C e s p = (s', out, r) -> r <> Panic ->
  (otr_disabled (de_policy (se_details s)) = true /\ s' = s /\ out = [] /\ r = Ok (UMPlaintext p))
  \/ (otr_disabled (de_policy (se_details s)) = false /\ exists b, completes s p b /\
        receive_message C e (stored s p) b = (s', out, r))
  \/ (otr_disabled (de_policy (se_details s)) = false /\ match_fragment p = true /\ out = [] /\
      (s' = s \/
       s' = stored s p /\ exists f, parse_fragment p = Ok (Some f) /\ verify_fragment f = true /\
         (fr_receiver f = 0 \/ fr_receiver f = de_tag (se_details s))) /\
      (r = Ok UMNone \/ exists x, r = Err x)).
Proof.
  unfold receive. intros H NP. destruct (otr_disabled _); [fin3 H; auto|]. right.
  destruct (match_fragment p) eqn:MF.
  2:{ left. split; [reflexivity|]. exists p. split; [left; auto|]. unfold stored. rewrite MF. exact H. }
  destruct (parse_fragment p) as [[f|]|x|] eqn:PF; [| |now apply parse_fragment_no_err in PF|fin3 H; congruence].
  2:{ fin3 H. right. auto 8. }
  destruct (verify_fragment f) eqn:VF; cbn [negb] in H; [|fin3 H; right; eauto 8].
  destruct (negb (fr_receiver f =? 0) && negb (fr_receiver f =? de_tag (se_details s))) eqn:R;
    [fin3 H; right; eauto 8|].
  assert (RR : fr_receiver f = 0 \/ fr_receiver f = de_tag (se_details s)).
  { apply andb_false_iff in R. destruct R as [R|R]; apply negb_false_iff, N.eqb_eq in R; auto. }
  assert (ST : stored s p = put s (fr_sender f) (set_assembler (entry (fr_sender f) (se_instances s))
            (fst (assemble (in_assembler (entry (fr_sender f) (se_instances s))) f))))
    by (unfold stored; now rewrite MF, PF).
  destruct (assemble _ f) as [a q] eqn:AS. cbn [fst] in ST. rewrite <- ST in H. destruct q as [b|[]|].
  - destruct (match_fragment b) eqn:MB; [fin3 H; right; eauto 12|].
    left. split; [reflexivity|]. exists b. split.
    + right. exists f, a. auto 8.
    + destruct (receive_message C e (stored s p) b) as [[s1 o1] [m|x|]]; try assumption. fin3 H. congruence.
  - fin3 H. right. eauto 12.
  - fin3 H. right. eauto 12.
  - fin3 H. right. eauto 12.
  - fin3 H. congruence.
Qed.

Definition adopted (z : option instance) (m : encoded_message) (i i0 : instance) : Prop :=
  i0 = i
  \/ (exists zi a, z = Some zi /\ (exists k, em_message m = MDHKey k) /\ em_version m = V3 /\
        ake_transfer (in_ake zi) = Ok a /\ i0 = set_ake i a)
  \/ (exists zi a, z = Some zi /\ (exists k, em_message m = MAuthR k) /\ em_version m = V4 /\
        dake_transfer (in_dake zi) = Ok a /\ i0 = set_dake i a).
Lemma adopted_same z m i i0 : adopted z m i i0 ->
  in_state i0 = in_state i /\ in_receiver i0 = in_receiver i /\ in_assembler i0 = in_assembler i.
Proof. intros [->|[(? & ? & _ & _ & _ & _ & ->)|(? & ? & _ & _ & _ & _ & ->)]]; auto. Qed.

Lemma encoded_split e s em s' out r : receive_encoded C e s em = (s', out, r) -> r <> Panic ->
  (s' = s /\ out = [] /\ (em_sender em = 0 \/ ~ allowed (se_details s) (em_version em)) /\ r = Ok UMNone)
  \/ (s' = s /\ out = [] /\ em_sender em <> 0 /\ exists x, r = Err x /\ verify_header (se_details s) em = Err x)
  \/ (verify_header (se_details s) em = Ok tt /\ em_sender em <> 0 /\
      allowed (se_details s) (em_version em) /\
      exists i0 i', adopted (get_inst 0 (se_instances s)) em (entry (em_sender em) (se_instances s)) i0 /\
        inst_handle C (se_details s) e i0 em = (i', out, r) /\ s' = put s (em_sender em) i').
Proof.
  unfold receive_encoded. intros H NP.
  destruct (em_sender em =? 0) eqn:Z; [apply N.eqb_eq in Z; fin3 H; auto 10|]. apply N.eqb_neq in Z.
  destruct (verify_header (se_details s) em) as [[]|x|] eqn:V; [|fin3 H; right; left; eauto 8|fin3 H; congruence].
  assert (VV : em_version em = V3 \/ em_version em = V4).
  { unfold verify_header in V. destruct (em_version em); auto; discriminate. }
  destruct (_ || _) eqn:P.
  { fin3 H. left. split; [reflexivity|]. split; [reflexivity|]. split; [|reflexivity]. right.
    destruct VV as [E|E]; rewrite E in *; cbn [version_eqb andb orb allowed] in *.
    - rewrite orb_false_r in P. apply negb_true_iff in P. congruence.
    - apply negb_true_iff in P. congruence. }
  right. right. split; [reflexivity|]. split; [assumption|]. split.
  { destruct VV as [E|E]; rewrite E in *; cbn [version_eqb andb orb allowed] in *.
    - rewrite orb_false_r in P. now apply negb_false_iff in P.
    - now apply negb_false_iff in P. }
  set (z := get_inst 0 (se_instances s)) in *.
  assert (PL : on_entry s (em_sender em) (fun i => inst_handle C (se_details s) e i em) = (s', out, r) ->
    exists i0 i', adopted z em (entry (em_sender em) (se_instances s)) i0 /\
        inst_handle C (se_details s) e i0 em = (i', out, r) /\ s' = put s (em_sender em) i').
  { intros O. apply on_entry_inv in O; [|assumption]. destruct O as (i' & A & B).
    exists (entry (em_sender em) (se_instances s)), i'. split; [now left|]. auto. }
  destruct (em_version em) eqn:EV; [now destruct VV| | |now destruct VV].
  - destruct (em_message em) eqn:EM; try (now apply PL).
    destruct z as [zi|] eqn:EZ; [|fin3 H; congruence].
    unfold transfer_ake_context in H. destruct (in_receiver zi =? 0); [|fin3 H; congruence].
    destruct (ake_transfer (in_ake zi)) as [a|x|] eqn:T; [|now apply PL|fin3 H; congruence].
    apply on_entry_inv in H; [|assumption]. destruct H as (i' & A & ->).
    unfold adopt_ake_context in A. destruct (in_receiver (entry _ _) =? 0); [fin3 A; congruence|].
    eexists _, i'. split; [|split; [exact A|reflexivity]]. right. left. eauto 10.
  - destruct (em_message em) eqn:EM; try (now apply PL).
    destruct z as [zi|] eqn:EZ; [|fin3 H; congruence].
    unfold transfer_dake_context in H. destruct (in_receiver zi =? 0); [|fin3 H; congruence].
    destruct (dake_transfer (in_dake zi)) as [a|x|] eqn:T; [|now apply PL|fin3 H; congruence].
    apply on_entry_inv in H; [|assumption]. destruct H as (i' & A & ->).
    unfold adopt_dake_context in A. destruct (in_receiver (entry _ _) =? 0); [fin3 A; congruence|].
    eexists _, i'. split; [|split; [exact A|reflexivity]]. right. right. eauto 10.
Qed.

Lemma deliver_inv s out c s' out' r : deliver_text s out c = (s', out', r) -> r <> Panic ->
  s' = s /\ out' = out /\ exists b, has_sessions s = Ok b /\
    r = Ok (if b || require_encryption (de_policy (se_details s)) then UMWarningUnencrypted c else UMPlaintext c).
Proof.
  unfold deliver_text. intros H NP. destruct (has_sessions s) as [b|x|] eqn:E; [| |fin3 H; congruence].
  - fin3 H. eauto.
  - exfalso. unfold has_sessions in E. destruct (forallb _ _); discriminate.
Qed.

(* a complete message: text, or an offer that starts an exchange at instance 0, or an encoded message *)
Lemma message_split e s b s' out r : receive_message C e s b = (s', out, r) -> r <> Panic ->
  (exists x, parse C b = Err x /\ s' = s /\ out = [] /\ r = Err x)
  \/ (exists t, parse C b = Ok (MsgError t) /\ s' = s /\
        (r = Ok (UMError t) /\
           (error_start_ake (de_policy (se_details s)) = true /\ query s = Ok out
            \/ error_start_ake (de_policy (se_details s)) = false /\ out = [])
         \/ exists x, query s = Err x /\ out = [] /\ r = Err x))
  \/ (exists t, parse C b = Ok (MsgPlaintext t) /\ deliver_text s [] t = (s', out, r))
  \/ (exists vs t, parse C b = Ok (MsgTagged vs t) /\
        ((whitespace_start_ake (de_policy (se_details s)) = false \/
          select_version (de_policy (se_details s)) vs = None) /\ deliver_text s [] t = (s', out, r)
         \/ whitespace_start_ake (de_policy (se_details s)) = true /\
            exists v s1 r1, select_version (de_policy (se_details s)) vs = Some v /\
              initiate C e s v 0 = (s1, out, r1) /\ r1 <> Panic /\
              ((exists m, r1 = Ok m) /\ deliver_text s1 out t = (s', out, r) \/ s' = s1 /\ r = r1 /\ exists x, r1 = Err x)))
  \/ (exists vs, parse C b = Ok (MsgQuery vs) /\
        (select_version (de_policy (se_details s)) vs = None /\ s' = s /\ out = [] /\ r = Ok UMNone
         \/ exists v r1, select_version (de_policy (se_details s)) vs = Some v /\
              initiate C e s v 0 = (s', out, r1) /\ ((exists m, r1 = Ok m) /\ r = Ok UMNone \/ r = r1 /\ exists x, r1 = Err x)))
  \/ (exists em, parse C b = Ok (MsgEncoded em) /\ receive_encoded C e s em = (s', out, r)).
Proof.
  unfold receive_message. intros H NP. destruct (parse C b) as [[t|t|vs t|vs|em]|x|] eqn:P.
  - right. left. exists t. split; [reflexivity|]. destruct (error_start_ake _) eqn:EA; [|fin3 H; auto 8].
    destruct (query s) as [o|x|] eqn:Q; fin3 H; try congruence; eauto 10.
  - right. right. left. eauto.
  - right. right. right. left. exists vs, t. split; [reflexivity|].
    destruct (whitespace_start_ake _) eqn:W; [|left; auto].
    destruct (select_version _ vs) as [v|] eqn:S; [|left; auto].
    right. split; [reflexivity|]. destruct (initiate C e s v 0) as [[s1 o1] r1] eqn:I.
    exists v, s1, r1. split; [reflexivity|]. destruct r1 as [m|x|].
    + assert (o1 = out) as ->. { unfold deliver_text in H. destruct (has_sessions s1); fin3 H; congruence. }
      split; [exact I|]. split; [congruence|]. left. eauto.
    + fin3 H. split; [exact I|]. split; [congruence|]. right. eauto.
    + fin3 H. congruence.
  - right. right. right. right. left. exists vs. split; [reflexivity|].
    destruct (select_version _ vs) as [v|] eqn:S; [|left; fin3 H; auto]. right.
    destruct (initiate C e s v 0) as [[s1 o1] r1] eqn:I. exists v, r1. split; [reflexivity|].
    destruct r1 as [m|x|]; fin3 H; eauto 8. congruence.
  - right. right. right. right. right. eauto.
  - fin3 H. left. eauto.
  - fin3 H. congruence.
Qed.

Lemma initiate_inv e s v t s' out r : initiate C e s v t = (s', out, r) -> r <> Panic ->
  exists i', inst_initiate C (se_details s) e (entry t (se_instances s)) v = (i', out, r) /\ s' = put s t i' /\
    in_state i' = state_of s t /\ in_receiver i' = in_receiver (entry t (se_instances s)) /\
    in_assembler i' = in_assembler (entry t (se_instances s)).
Proof.
  unfold initiate. intros H NP. apply on_entry_inv in H; [|assumption]. destruct H as (i' & H & ->).
  exists i'. split; [assumption|]. split; [reflexivity|].
  apply initiate_moves in H; [|assumption]. now rewrite <- entry_state.
Qed.

(** ** The invariant *)

Record sinv (s : session) : Prop := mkSinv {
  si_receivers : all_inst (fun t i => in_receiver i = t) (se_instances s);
  si_nodup : NoDup (map fst (se_instances s));
  si_zero : exists z, get_inst 0 (se_instances s) = Some z /\ in_state z = PPlain;
  si_parties : all_inst (fun t i => party (de_tag (se_details s)) t (in_state i)) (se_instances s) }.

Lemma sinv_new d : sinv (session_new d).
Proof.
  split; cbn [session_new se_instances].
  - now repeat constructor.
  - cbn [map fst]. constructor; [easy|constructor].
  - exists (instance_new 0). auto.
  - now repeat constructor.
Qed.
Lemma sinv_put s t i : sinv s -> in_receiver i = t -> (t = 0 -> in_state i = PPlain) ->
  party (de_tag (se_details s)) t (in_state i) -> sinv (put s t i).
Proof.
  intros [A B (z & Z1 & Z2) P] R Z PA. split; cbn [put with_instances se_instances se_details].
  - now apply all_set.
  - now apply nodup_set.
  - destruct (N.eq_dec t 0) as [->|NE].
    + exists i. rewrite get_set_same. auto.
    + exists z. rewrite get_set_other; auto.
  - now apply all_set.
Qed.
Lemma sinv_party s t : sinv s -> party (de_tag (se_details s)) t (state_of s t).
Proof.
  intros [_ _ _ P]. unfold state_of. destruct (get_inst t (se_instances s)) eqn:G; [|exact I].
  exact (all_get _ _ _ _ P G).
Qed.
Lemma sinv_get_party s t i : sinv s -> get_inst t (se_instances s) = Some i ->
  party (de_tag (se_details s)) t (in_state i).
Proof. intros [_ _ _ P] G. exact (all_get _ _ _ _ P G). Qed.
Lemma sinv_state_zero s : sinv s -> state_of s 0 = PPlain.
Proof. intros [_ _ (z & Z1 & Z2) _]. unfold state_of. now rewrite Z1. Qed.
Lemma sinv_entry s t : sinv s -> in_receiver (entry t (se_instances s)) = t.
Proof. intros [A _ _ _]. now apply entry_receiver. Qed.
Lemma sinv_get s t i : sinv s -> get_inst t (se_instances s) = Some i -> in_receiver i = t.
Proof. intros [A _ _ _] G. exact (all_get _ _ _ _ A G). Qed.

Lemma sinv_stored s p : sinv s -> sinv (stored s p).
Proof.
  intros I. unfold stored. destruct (match_fragment p); [|assumption].
  destruct (parse_fragment p) as [[f|]|?|]; try assumption.
  apply sinv_put; [assumption| | |]; cbn [in_receiver set_assembler in_state].
  - now apply sinv_entry.
  - intros E. rewrite E, entry_state. now apply sinv_state_zero.
  - rewrite entry_state. now apply sinv_party.
Qed.
Lemma sinv_initiate e s v t s' out r : initiate C e s v t = (s', out, r) -> r <> Panic -> sinv s -> sinv s'.
Proof.
  intros H NP I. apply initiate_inv in H; [|assumption]. destruct H as (i' & _ & -> & S & R & _).
  apply sinv_put; [assumption| | |].
  - rewrite R. now apply sinv_entry.
  - intros ->. rewrite S. now apply sinv_state_zero.
  - rewrite S. now apply sinv_party.
Qed.
Lemma sinv_encoded e s em s' out r : receive_encoded C e s em = (s', out, r) -> r <> Panic -> sinv s -> sinv s'.
Proof.
  intros H NP I. apply encoded_split in H; [|assumption].
  destruct H as [(-> & _) | [(-> & _) | (_ & NZ & _ & i0 & i' & A & H & ->)]]; try assumption.
  apply handle_moves in H as HM; [|assumption]. destruct HM as [_ R]. apply adopted_same in A.
  destruct A as (S0 & R0 & _).
  assert (RE : in_receiver i0 = em_sender em) by (rewrite R0; now apply sinv_entry).
  apply sinv_put; [assumption| | |].
  - now rewrite R.
  - intros. contradiction.
  - apply (handle_party C (de_tag (se_details s))) in H; [|assumption|reflexivity|assumption|].
    + now rewrite RE in H.
    + rewrite RE, S0, entry_state. now apply sinv_party.
Qed.
Lemma sinv_message e s b s' out r : receive_message C e s b = (s', out, r) -> r <> Panic -> sinv s -> sinv s'.
Proof.
  intros H NP I. apply message_split in H; [|assumption].
  destruct H as [(x & _ & -> & _) | [(t & _ & -> & _) | [(t & _ & H) | [(vs & t & _ & H) | [(vs & _ & H) | (em & _ & H)]]]]];
    try assumption.
  - apply deliver_inv in H; [|assumption]. destruct H as (-> & _). assumption.
  - destruct H as [(_ & H) | (_ & v & s1 & r1 & _ & H1 & NP1 & H)].
    + apply deliver_inv in H; [|assumption]. destruct H as (-> & _). assumption.
    + apply sinv_initiate in H1; [|assumption|assumption]. destruct H as [(_ & H) | (-> & _)]; [|assumption].
      apply deliver_inv in H; [|assumption]. destruct H as (-> & _). assumption.
  - destruct H as [(_ & -> & _) | (v & r1 & _ & H1 & H)]; [assumption|].
    eapply sinv_initiate; [exact H1| |assumption]. destruct H as [((m & ->) & _) | (_ & x & ->)]; congruence.
  - eapply sinv_encoded; eassumption.
Qed.
Lemma sinv_receive e s p s' out r : receive C e s p = (s', out, r) -> r <> Panic -> sinv s -> sinv s'.
Proof.
  intros H NP I. apply receive_split in H; [|assumption].
  destruct H as [(_ & -> & _) | [(_ & b & _ & H) | (_ & _ & _ & [-> | (-> & _)] & _)]]; try assumption.
  - eapply sinv_message; [exact H|assumption|]. now apply sinv_stored.
  - now apply sinv_stored.
Qed.

Lemma send_inv e s t c s' out r : send C e s t c = (s', out, r) -> r <> Panic ->
  (otr_disabled (de_policy (se_details s)) = true /\ s' = s /\ out = [] /\ r = Ok [c])
  \/ otr_disabled (de_policy (se_details s)) = false /\
    ((get_inst t (se_instances s) = None /\ s' = s /\ out = [] /\ r = Err (UnknownInstance t))
     \/ exists i, get_inst t (se_instances s) = Some i /\
        ((require_encryption (de_policy (se_details s)) = true /\ in_status i = Plaintext /\ s' = s /\
          (query s = Ok out /\ r = Err PolicyRestriction \/ exists x, query s = Err x /\ out = [] /\ r = Err x))
         \/ (require_encryption (de_policy (se_details s)) = false \/ in_status i <> Plaintext) /\
            out = [] /\ exists i' tagged, inst_send C (se_details s) e i (se_tagged s) c = (i', tagged, r) /\
              s' = mkSession (se_details s) (set_inst t i' (se_instances s)) tagged)).
Proof.
  unfold send. intros H NP. destruct (otr_disabled _); [fin3 H; auto|]. right. split; [reflexivity|].
  destruct (get_inst t _) as [i|]; [|fin3 H; auto]. right. exists i. split; [reflexivity|].
  destruct (require_encryption _ && _) eqn:RE.
  - apply andb_true_iff in RE. destruct RE as [R1 R2]. left. split; [assumption|].
    split; [now destruct (in_status i)|].
    destruct (query s) eqn:Q; fin3 H; try congruence; eauto 10.
  - right. split. { apply andb_false_iff in RE. destruct RE as [R|R]; [auto|right; now destruct (in_status i)]. }
    destruct (inst_send _ _ _ _ _ _) as [[i' tg] x] eqn:S.
    destruct x; fin3 H; try congruence; eauto 10.
Qed.

Lemma expire_all_inv d es timeout l l' out r : expire_all C d es timeout l = (l', out, r) -> r <> Panic ->
  map fst l' = map fst l /\
  forall t i', In (t, i') l' -> exists i, In (t, i) l /\
    (i' = i \/ (i' = set_state i PFin /\ expired (ev_now (es t)) timeout i = true)).
Proof.
  revert l' out r. induction l as [|[t i] l IH]; cbn [expire_all]; intros l' out r H NP.
  - fin3 H. split; [reflexivity|easy].
  - destruct (inst_expire C d (es t) i timeout) as [[i1 o1] x1] eqn:E.
    destruct x1 as [[]|x|]; [| |fin3 H; congruence].
    + destruct (expire_all C d es timeout l) as [[l1 o2] x2] eqn:EA. fin3 H.
      destruct (IH _ _ _ eq_refl NP) as [K A]. cbn [map fst]. split; [now rewrite K|].
      apply expire_inst in E; [|congruence]. intros t0 i0 [I0|I0].
      * injection I0 as -> ->. exists i. split; [now left|].
        destruct E as [(_ & -> & _) | [(X & -> & _) | (x & ? & _)]]; auto; discriminate.
      * destruct (A _ _ I0) as (i2 & I2 & H2). exists i2. split; [now right|assumption].
    + fin3 H. apply expire_inst in E; [|congruence]. cbn [map fst]. split; [reflexivity|].
      intros t0 i0 [I0|I0].
      * injection I0 as -> ->. exists i. split; [now left|].
        destruct E as [(_ & -> & _) | [(X & -> & _) | (y & _ & -> & _)]]; auto.
      * exists i0. split; [now right|auto].
Qed.

Lemma sinv_call es s o s' out r : call C es s o = (s', out, r) -> r <> Panic -> sinv s ->
  sinv s' /\ se_details s' = se_details s.
Proof.
  intros H NP I. unfold call in H.
  assert (ANS : forall A (f : A -> answer) x, answering f x = (s', out, r) ->
     exists r0, x = (s', out, r0) /\ r = res_map f r0 /\ r0 <> Panic).
  { intros A f [[s1 o1] r1] X. unfold answering in X. fin3 X. exists r1.
    split; [reflexivity|]. split; [reflexivity|]. intros ->. now apply NP. }
  assert (OI : forall A (f : instance -> effect instance A) t r0, on_instance s t f = (s', out, r0) -> r0 <> Panic ->
     (forall i i' o x, get_inst t (se_instances s) = Some i -> f i = (i', o, x) -> x <> Panic ->
        in_receiver i' = in_receiver i /\ (in_status i = Plaintext -> in_state i' = PPlain) /\
        (party (de_tag (se_details s)) t (in_state i) -> party (de_tag (se_details s)) t (in_state i'))) ->
     sinv s' /\ se_details s' = se_details s).
  { intros A f t r0 X NP0 F. apply on_instance_inv in X; [|assumption].
    destruct X as [(_ & -> & _) | (i & i' & G & X & ->)]; [auto|].
    specialize (F _ _ _ _ G X NP0). destruct F as (F1 & F2 & F3). split; [|reflexivity].
    apply sinv_put; [assumption| | |].
    - rewrite F1. eapply sinv_get; eassumption.
    - intros ->. apply F2. unfold in_status. destruct I as [_ _ (z & Z1 & Z2) _]. rewrite Z1 in G. injection G as <-.
      now rewrite Z2.
    - apply F3. eapply sinv_get_party; eassumption. }
  assert (PL : forall i, in_status i = Plaintext -> in_state i = PPlain).
  { intros i. unfold in_status. now destruct (in_state i). }
  destruct o.
  - apply ANS in H. destruct H as (r0 & H & _ & NP0). split; [eapply sinv_receive; eassumption|].
    apply receive_split in H; [|assumption].
    destruct H as [(_ & -> & _) | [(_ & b & _ & H) | (_ & _ & _ & [-> | (-> & _)] & _)]]; try reflexivity.
    2: apply stored_details.
    rewrite <- (stored_details s payload). apply message_split in H; [|assumption].
    destruct H as [(x & _ & -> & _) | [(t & _ & -> & _) | [(t & _ & H) | [(vs & t & _ & H) | [(vs & _ & H) | (em & _ & H)]]]]];
      try reflexivity.
    + apply deliver_inv in H; [|assumption]. now destruct H as (-> & _).
    + destruct H as [(_ & H) | (_ & v & s1 & r1 & _ & H1 & NP1 & H)].
      * apply deliver_inv in H; [|assumption]. now destruct H as (-> & _).
      * apply initiate_inv in H1; [|assumption]. destruct H1 as (i' & _ & -> & _).
        destruct H as [(_ & H) | (-> & _)]; [|reflexivity].
        apply deliver_inv in H; [|assumption]. now destruct H as (-> & _).
    + destruct H as [(_ & -> & _) | (v & r1 & _ & H1 & H)]; [reflexivity|].
      apply initiate_inv in H1; [now destruct H1 as (i' & _ & -> & _)|].
      destruct H as [((m & ->) & _) | (_ & x & ->)]; congruence.
    + apply encoded_split in H; [|assumption].
      destruct H as [(-> & _) | [(-> & _) | (_ & NZ & _ & i0 & i' & A & H & ->)]]; reflexivity.
  - apply ANS in H. destruct H as (r0 & H & _ & NP0). apply send_inv in H; [|assumption].
    destruct H as [(_ & -> & _) | (_ & [(_ & -> & _) | (i & G & [(_ & _ & -> & _) | (_ & _ & i' & tg & S & ->)])])]; auto.
    split; [|reflexivity]. apply send_moves in S as SM; [|assumption]. destruct SM as (S1 & S2 & _).
    assert (P : sinv (put s tag i')).
    { apply sinv_put; [assumption| | |].
      - rewrite S2. eapply sinv_get; eassumption.
      - intros ->. apply PL. rewrite S1. destruct I as [_ _ (z & Z1 & Z2) _]. rewrite Z1 in G. injection G as <-.
        unfold in_status. now rewrite Z2.
      - eapply send_party in S; [exact S|assumption|]. eapply sinv_get_party; eassumption. }
    destruct P as [P1 P2 P3 P4]. now split.
  - apply ANS in H. destruct H as (r0 & H & _ & NP0). split; [eapply sinv_initiate; eassumption|].
    apply initiate_inv in H; [|assumption]. now destruct H as (i' & _ & -> & _).
  - apply ANS in H. destruct H as (r0 & H & _ & NP0). eapply OI; [exact H|assumption|].
    intros i i' o x G X NX. apply reset_effect in X; [|assumption].
    destruct X as [-> | (-> & _)]; auto. repeat split.
  - apply ANS in H. destruct H as (r0 & H & _ & NP0). unfold ses_query in H. destruct (query s); fin3 H; auto.
  - apply ANS in H. destruct H as (r0 & H & _ & NP0). eapply OI; [exact H|assumption|].
    intros i i' o x G X NX. apply start_smp_moves in X as XM; [|assumption]. destruct XM as [X1 X2].
    split; [assumption|]. split; [intros P; apply PL; now rewrite X1|]. intros P. eapply start_smp_party in X; [exact X|assumption|exact P].
  - apply ANS in H. destruct H as (r0 & H & _ & NP0). eapply OI; [exact H|assumption|].
    intros i i' o x G X NX. apply abort_smp_moves in X as XM; [|assumption]. destruct XM as [X1 X2].
    split; [assumption|]. split; [intros P; apply PL; now rewrite X1|]. intros P. eapply abort_smp_party in X; [exact X|assumption|exact P].
  - apply ANS in H. destruct H as (r0 & H & _ & NP0). unfold expire in H.
    destruct (expire_all C (se_details s) es timeout (se_instances s)) as [[l' o] x] eqn:E.
    assert (s' = with_instances s l' /\ r0 = x) as [-> ->] by (destruct x; fin3 H; auto; congruence).
    apply expire_all_inv in E; [|assumption]. destruct E as [K A]. split; [|reflexivity].
    destruct I as [I1 I2 (z & Z1 & Z2) I4]. split; cbn [with_instances se_instances se_details].
    + apply Forall_forall. intros [t i'] IN. destruct (A _ _ IN) as (i & IN0 & D).
      unfold all_inst in I1. rewrite Forall_forall in I1. specialize (I1 _ IN0). cbn in I1.
      destruct D as [-> | (-> & _)]; assumption.
    + now rewrite K.
    + assert (Z0 : get_inst 0 l' <> None).
      { apply in_keys. rewrite K. apply in_keys. congruence. }
      destruct (get_inst 0 l') as [z'|] eqn:G; [|congruence]. exists z'. split; [reflexivity|].
      apply get_in in G. destruct (A _ _ G) as (i & IN0 & D). apply in_get in IN0; [|assumption].
      rewrite Z1 in IN0. injection IN0 as <-.
      destruct D as [-> | (-> & X)]; [assumption|].
      unfold expired in X. now rewrite Z2 in X.
    + apply Forall_forall. intros [t i'] IN. destruct (A _ _ IN) as (i & IN0 & D).
      unfold all_inst in I4. rewrite Forall_forall in I4. specialize (I4 _ IN0). cbv beta iota in I4.
      destruct D as [-> | (-> & _)]; [assumption|constructor].
Qed.

End WithCrypto.
