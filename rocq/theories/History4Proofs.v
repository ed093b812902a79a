(* Invariants of one client over all histories of an OTRv4 session. *)
From Coq Require Import Lia ZifyN ZifyNat.
From Verif Require Import Base BaseLemmas Types Crypto CryptoProofs Encoding EncodingProofs ClientProfile Messages
  KeyManager KeyManagerProofs DataV3 DataV3Proofs History3Proofs Ratchet DataV4 SpecData4 DataV4Proofs.
Local Open Scope N_scope.

Section WithCrypto.
Context (C : Crypto) (our their : N).

Definition start_any (d : double_ratchet) : Prop := starts_sender4 C d \/ starts_receiver4 C d.

Lemma start_any_facts d : start_any d ->
  dr_reveals d = [] /\ dr_next d = RECEIVER /\ ra_message_id (dr_receiver d) = 0.
Proof.
  intros [(e & y & p & b & root & now & sh & _ & ->)|(e & y & p & b & root & now & sh & er & dr & nw & _ & R)].
  - cbn. auto.
  - apply rotate_sender_ok in R. destruct R as (ecdh & sh' & _ & _ & _ & -> & _). cbn. auto.
Qed.

Lemma send_fields d ig text extra rnd m d' :
  encrypt4 C our their d ig text extra rnd = Ok (m, d') ->
  dr_receiver d' = dr_receiver d /\ dr_next d' = RECEIVER /\
  ((dr_next d = RECEIVER /\ dr_i d' = dr_i d /\ dr_reveals d' = dr_reveals d /\ d4_revealed m = extra /\
    dr_created d' = dr_created d /\ d4_j m = ra_message_id (dr_sender d)) \/
   (dr_next d = SENDER /\ dr_i d' = dr_i d + 1 /\ dr_reveals d' = [] /\ d4_revealed m = extra ++ dr_reveals d /\
    dr_created d' = sr_now rnd /\ d4_j m = 0)).
Proof.
  intros E. apply encrypt4_ok in E.
  destruct E as (d1 & rv & R & NX & Z & NE & -> & _ & _ & _ & J & _ & _ & _ & _ & RV & _).
  destruct R as [NX0|d1 NX0 RS].
  - cbn. auto 10.
  - apply rotate_sender_ok in RS. destruct RS as (ecdh & sh & _ & _ & _ & -> & _). cbn in *. auto 10.
Qed.

Lemma accept_fields d m auth now d' text :
  decrypt4 C d m auth now = (d', Ok text) ->
  exists ck, reads_with4 C d m ck /\
    dr_receiver d' = mkRatchet (kdf C 64 USAGE_NEXT_CHAIN_KEY ck) (d4_j m + 1) /\
    dr_reveals d' = dr_reveals d ++ mac_key4 C ck /\ dr_sender d' = dr_sender d /\
    ((d4_i m + 1 = dr_i d /\ ra_message_id (dr_receiver d) <= d4_j m /\
      dr_i d' = dr_i d /\ dr_next d' = dr_next d /\ dr_created d' = dr_created d) \/
     (d4_i m = dr_i d /\ dr_next d = RECEIVER /\ dr_i d' = dr_i d + 1 /\ dr_next d' = SENDER /\
      dr_created d' = now)).
Proof.
  intros E. apply decrypt4_ok in E. destruct E as (ck & A & _ & AU & _).
  exists ck. split; [now apply accepted4_reads in A|].
  destruct A as [I J K|sh dh I NX DH TH FR X K]; cbn; auto 15.
Qed.

Lemma run4_snoc_inv d0 h e d : run4 C our their d0 (h ++ [e]) d ->
  exists d1, run4 C our their d0 h d1 /\
  match e with
  | Sent4 m text => exists ig rnd, encrypt4 C our their d1 ig text [] rnd = Ok (m, d)
  | Took4 m auth text mk => exists now, decrypt4 C d1 m auth now = (d, Ok text) /\ authentic4 C d1 m auth mk
  | Refused4 m auth => exists now er, decrypt4 C d1 m auth now = (d, Err er)
  end.
Proof.
  intros H. inversion H as [E|h' d1 ig text rnd m d' R E EQ|h' d1 m auth now d' text mk R E A EQ|h' d1 m auth now d' er R E EQ].
  - destruct h; discriminate.
  - apply app_inj_tail in EQ. destruct EQ as [-> <-]. subst. eauto 10.
  - apply app_inj_tail in EQ. destruct EQ as [-> <-]. subst. eauto 10.
  - apply app_inj_tail in EQ. destruct EQ as [-> <-]. subst. eauto 10.
Qed.

Lemma run4_split d0 h1 : forall h2 d, run4 C our their d0 (h1 ++ h2) d ->
  exists d1, run4 C our their d0 h1 d1 /\ run4 C our their d1 h2 d.
Proof.
  intros h2. induction h2 as [|e h2 IH] using rev_ind; intros d H.
  - rewrite app_nil_r in H. exists d. split; [exact H|constructor].
  - rewrite app_assoc in H. apply run4_snoc_inv in H. destruct H as (d2 & R & E).
    apply IH in R. destruct R as (d1 & R1 & R2). exists d1. split; [exact R1|].
    destruct e as [m text|m auth text mk|m auth].
    + destruct E as (ig & rnd & E). eapply r4_send; eauto.
    + destruct E as (now & E & A). eapply r4_accept; eauto.
    + destruct E as (now & er & E). eapply r4_refuse; eauto.
Qed.

(** ** Positions *)

Definition behind (d : double_ratchet) (m : data4) : Prop :=
  d4_i m + 1 <= dr_i d /\ (d4_i m + 1 = dr_i d -> d4_j m < ra_message_id (dr_receiver d)).

Lemma behind_send d ig text extra rnd m' d' m :
  encrypt4 C our their d ig text extra rnd = Ok (m', d') -> behind d m -> behind d' m.
Proof.
  intros E [B1 B2]. apply send_fields in E. destruct E as (R & _ & [(_ & I & _)|(_ & I & _)]);
    unfold behind; rewrite R, I; split; try lia; intros; apply B2; lia.
Qed.

Lemma behind_accept d m' auth now d' text m :
  decrypt4 C d m' auth now = (d', Ok text) -> behind d m -> before4 m m' /\ behind d' m.
Proof.
  intros E [B1 B2]. apply accept_fields in E. destruct E as (ck & _ & R & _ & _ & E).
  unfold behind, before4. rewrite R. cbn [ra_message_id].
  destruct E as [(I & J & I' & _)|(I & _ & I' & _)]; rewrite I'.
  - split; [lia|]. split; [lia|]. intros Q. specialize (B2 Q). lia.
  - split; [lia|]. split; [lia|]. lia.
Qed.

Lemma behind_self d m auth now d' text : decrypt4 C d m auth now = (d', Ok text) -> behind d' m.
Proof.
  intros E. apply accept_fields in E. destruct E as (ck & _ & R & _ & _ & E).
  unfold behind. rewrite R. cbn [ra_message_id].
  destruct E as [(I & J & I' & _)|(I & _ & I' & _)]; rewrite I'; lia.
Qed.

Lemma behind_run d0 h d m : run4 C our their d0 h d -> behind d0 m ->
  behind d m /\ forall m' a t k, In (Took4 m' a t k) h -> before4 m m'.
Proof.
  intros R B. induction R as [|h d ig text rnd m' d' _ [IH1 IH2] E|h d m' auth now d' text mk _ [IH1 IH2] E _|h d m' auth now d' e _ [IH1 IH2] E].
  - split; [assumption|]. intros ? ? ? ? [].
  - split; [eapply behind_send; eassumption|]. intros m2 a t k H. apply in_app_or in H.
    destruct H as [H|[H|[]]]; [eauto|discriminate].
  - destruct (behind_accept _ _ _ _ _ _ m E IH1) as [BF BH]. split; [exact BH|].
    intros m2 a t k H. apply in_app_or in H. destruct H as [H|[H|[]]]; [eauto|]. injection H as <- _ _ _. exact BF.
  - apply decrypt4_err in E. subst d'. split; [assumption|]. intros m2 a t k H. apply in_app_or in H.
    destruct H as [H|[H|[]]]; [eauto|discriminate].
Qed.

Lemma accepted_once h d h1 m1 a1 t1 k1 h2 m2 a2 t2 k2 h3 :
  history4 C our their h d ->
  h = h1 ++ Took4 m1 a1 t1 k1 :: h2 ++ Took4 m2 a2 t2 k2 :: h3 -> before4 m1 m2.
Proof.
  intros (d0 & _ & R) ->.
  replace (h1 ++ Took4 m1 a1 t1 k1 :: h2 ++ Took4 m2 a2 t2 k2 :: h3)
    with ((h1 ++ [Took4 m1 a1 t1 k1]) ++ h2 ++ Took4 m2 a2 t2 k2 :: h3) in R by now rewrite <- app_assoc.
  apply run4_split in R. destruct R as (d1 & R1 & R2).
  apply run4_snoc_inv in R1. destruct R1 as (dm & _ & now & E & _).
  eapply behind_run; [exact R2| |].
  - eapply behind_self. exact E.
  - apply in_or_app. right. left. reflexivity.
Qed.

(* nothing at an old position verifies *)
Lemma stale_refused h d h1 m1 a1 t1 k1 h2 m a now d' r :
  history4 C our their h d -> h = h1 ++ Took4 m1 a1 t1 k1 :: h2 ->
  ~ before4 m1 m -> decrypt4 C d m a now = (d', r) -> r <> Panic -> d' = d /\ exists e, r = Err e.
Proof.
  intros (d0 & _ & R) -> NB E NP.
  replace (h1 ++ Took4 m1 a1 t1 k1 :: h2) with ((h1 ++ [Took4 m1 a1 t1 k1]) ++ h2) in R
    by now rewrite <- app_assoc.
  apply run4_split in R. destruct R as (d1 & R1 & R2).
  apply run4_snoc_inv in R1. destruct R1 as (dm & _ & nw & E1 & _).
  apply behind_self in E1. apply (behind_run _ _ _ _ R2) in E1. destruct E1 as [B _].
  destruct r as [t|e|]; [|now apply decrypt4_err in E; eauto|contradiction].
  exfalso. apply NB. now apply (behind_accept _ _ _ _ _ _ m1 E).
Qed.

(* in fact such a message is refused at once, whatever it contains: this cannot even crash *)
Lemma stale_refused_early h d h1 m1 a1 t1 k1 h2 m a now :
  history4 C our their h d -> h = h1 ++ Took4 m1 a1 t1 k1 :: h2 ->
  ~ before4 m1 m -> decrypt4 C d m a now = (d, Err UserError).
Proof.
  intros (d0 & _ & R) -> NB.
  replace (h1 ++ Took4 m1 a1 t1 k1 :: h2) with ((h1 ++ [Took4 m1 a1 t1 k1]) ++ h2) in R
    by now rewrite <- app_assoc.
  apply run4_split in R. destruct R as (d1 & R1 & R2).
  apply run4_snoc_inv in R1. destruct R1 as (dm & _ & nw & E1 & _).
  apply behind_self in E1. apply (behind_run _ _ _ _ R2) in E1. destruct E1 as [[B1 B2] _].
  assert (S : speculate4 C d m now = Err UserError).
  { unfold before4 in NB. unfold speculate4. destruct (N.ltb_spec (dr_i d) (d4_i m)); [lia|].
    replace (_ || _) with true; [reflexivity|]. symmetry. apply orb_true_iff.
    rewrite N.ltb_lt, andb_true_iff, N.eqb_eq, N.ltb_lt. lia. }
  unfold decrypt4. rewrite S. reflexivity.
Qed.

Lemma later_accepted d m1 auth1 now1 d1 t1 ck m2 auth2 now2 :
  decrypt4 C d m1 auth1 now1 = (d1, Ok t1) -> reads_with4 C d m1 ck ->
  d4_i m2 = d4_i m1 -> d4_j m1 < d4_j m2 < 4294967295 ->
  let ck2 := chain4 C ck (N.to_nat (d4_j m2 - d4_j m1)) in
  all_zero ck2 = false ->
  d4_authenticator m2 = kdf2 C 64 USAGE_AUTHENTICATOR (mac_key4 C ck2) auth2 ->
  any_nonzero (d4_authenticator m2) = true ->
  exists d2, decrypt4 C d1 m2 auth2 now2
             = (d2, Ok (chacha_crypt C (firstn 32 (enc_key4 C ck2)) (d4_encrypted m2))).
Proof.
  intros E RW I J ck2 Z A NZ.
  apply accept_fields in E. destruct E as (ck' & RW' & R & _ & _ & E).
  rewrite (reads_with4_unique C d m1 ck' ck (or_intror Logic.I) RW' RW) in R.
  eexists. apply (decrypt4_current C d1 m2 auth2 now2 ck2); try assumption.
  - destruct E as [(Q & _ & Q' & _)|(Q & _ & Q' & _)]; lia.
  - rewrite R. cbn. lia.
  - lia.
  - rewrite R. cbn [ra_chain_key ra_message_id]. rewrite chain4_shift. unfold ck2. f_equal. lia.
Qed.

(** ** Unauthentic messages *)

Lemma unauthentic4_no_effect d m auth now d' r :
  decrypt4 C d m auth now = (d', r) -> r <> Panic -> (forall mk, ~ authentic4 C d m auth mk) ->
  d' = d /\ exists e, r = Err e.
Proof.
  intros E NP NA. destruct r as [t|e|]; [|apply decrypt4_err in E; eauto|contradiction].
  apply decrypt4_authentic in E. destruct E as [mk A]. now apply NA in A.
Qed.

(** ** Revealing MAC keys *)

Lemma revealed4_app a b : revealed4 (a ++ b) = revealed4 a ++ revealed4 b.
Proof. unfold revealed4. now rewrite map_app, concat_app. Qed.
Lemma accepted_macs4_app a b : accepted_macs4 (a ++ b) = accepted_macs4 a ++ accepted_macs4 b.
Proof. unfold accepted_macs4. now rewrite map_app, concat_app. Qed.

Lemma reveals_balance d0 h d : dr_reveals d0 = [] -> run4 C our their d0 h d ->
  revealed4 h ++ dr_reveals d = accepted_macs4 h.
Proof.
  intros S R. induction R as [|h d ig text rnd m d' _ IH E|h d m auth now d' text mk _ IH E A|h d m auth now d' e _ IH E].
  - exact S.
  - rewrite revealed4_app, accepted_macs4_app, <- IH. unfold revealed4 at 2, accepted_macs4. cbn. rewrite !app_nil_r.
    apply send_fields in E. destruct E as (_ & _ & [(_ & _ & RV & M & _)|(_ & _ & RV & M & _)]); rewrite RV, M.
    + now rewrite app_nil_r.
    + cbn [app]. now rewrite app_nil_r.
  - rewrite revealed4_app, accepted_macs4_app, <- IH. unfold revealed4 at 2, accepted_macs4. cbn. rewrite !app_nil_r.
    apply accept_fields in E. destruct E as (ck & RW & _ & RV & _). rewrite RV.
    destruct A as (ck' & RW' & -> & _). rewrite (reads_with4_unique C d m ck ck' (or_intror I) RW RW').
    now rewrite app_assoc.
  - apply decrypt4_err in E. subst d'. rewrite revealed4_app, accepted_macs4_app, <- IH.
    unfold revealed4 at 2, accepted_macs4. cbn. now rewrite !app_nil_r.
Qed.

Lemma history4_balance h d : history4 C our their h d -> revealed4 h ++ dr_reveals d = accepted_macs4 h.
Proof.
  intros (d0 & S & R). apply start_any_facts in S. destruct S as (S & _). eapply reveals_balance; eassumption.
Qed.

Lemma final_balance h d rnd m d' : history4 C our their h d -> final4 C our their d rnd = Ok (m, d') ->
  revealed4 h ++ d4_revealed m = accepted_macs4 h.
Proof.
  intros H E. rewrite <- (history4_balance h d H). f_equal. unfold final4, dr_collect_reveals in E.
  apply send_fields in E. destruct E as (_ & _ & [(_ & _ & _ & M & _)|(_ & _ & _ & M & _)]); rewrite M; [reflexivity|].
  cbn [dr_reveals]. now rewrite app_nil_r.
Qed.

Lemma reveals_first h d m text : history4 C our their h d -> In (Sent4 m text) h -> d4_revealed m <> [] -> d4_j m = 0.
Proof.
  intros (d0 & _ & R) H NE. apply in_split in H. destruct H as (h1 & h2 & ->).
  replace (h1 ++ Sent4 m text :: h2) with ((h1 ++ [Sent4 m text]) ++ h2) in R by now rewrite <- app_assoc.
  apply run4_split in R. destruct R as (d1 & R1 & _).
  apply run4_snoc_inv in R1. destruct R1 as (dm & _ & ig & rnd & E).
  apply send_fields in E. destruct E as (_ & _ & [(_ & _ & _ & M & _)|(_ & _ & _ & _ & _ & J)]); [contradiction|exact J].
Qed.

Lemma took_behind d0 h d m a t k : run4 C our their d0 h d -> In (Took4 m a t k) h -> behind d m.
Proof.
  intros R H. apply in_split in H. destruct H as (h1 & h2 & ->).
  replace (h1 ++ Took4 m a t k :: h2) with ((h1 ++ [Took4 m a t k]) ++ h2) in R by now rewrite <- app_assoc.
  apply run4_split in R. destruct R as (d1 & R1 & R2).
  apply run4_snoc_inv in R1. destruct R1 as (dm & _ & nw & E1 & _).
  apply behind_self in E1. now apply (behind_run _ _ _ _ R2) in E1.
Qed.

(* the index never decreases, accepted messages are at most one behind *)
Lemma took_index d0 h d m a t k : run4 C our their d0 h d -> In (Took4 m a t k) h -> dr_i d0 <= d4_i m + 1.
Proof.
  intros R. assert (M : dr_i d0 <= dr_i d /\ forall m a t k, In (Took4 m a t k) h -> dr_i d0 <= d4_i m + 1).
  { clear m a t k. induction R as [|h d ig text rnd m' d' _ [IH1 IH2] E|h d m' auth now d' text mk _ [IH1 IH2] E _|h d m' auth now d' e _ [IH1 IH2] E].
    - split; [lia|]. intros ? ? ? ? [].
    - split.
      + apply send_fields in E. destruct E as (_ & _ & [(_ & I & _)|(_ & I & _)]); lia.
      + intros m2 a t k H. apply in_app_or in H. destruct H as [H|[H|[]]]; [eauto|discriminate].
    - apply accept_fields in E. destruct E as (ck & _ & _ & _ & _ & E). split.
      + destruct E as [(_ & _ & I & _)|(_ & _ & I & _)]; lia.
      + intros m2 a t k H. apply in_app_or in H. destruct H as [H|[H|[]]]; [eauto|]. injection H as <- _ _ _.
        destruct E as [(Q & _)|(Q & _)]; lia.
    - apply decrypt4_err in E. subst d'. split; [lia|]. intros m2 a t k H. apply in_app_or in H.
      destruct H as [H|[H|[]]]; [eauto|discriminate]. }
  intros H. eapply M. exact H.
Qed.

Lemma revealed_retired h d h1 m text h2 m1 a1 t1 k1 m2 a2 t2 k2 :
  history4 C our their h d -> h = h1 ++ Sent4 m text :: h2 -> d4_revealed m <> [] ->
  In (Took4 m1 a1 t1 k1) h1 -> In (Took4 m2 a2 t2 k2) h2 -> d4_i m1 < d4_i m2.
Proof.
  intros (d0 & _ & R) -> NE H1 H2.
  replace (h1 ++ Sent4 m text :: h2) with ((h1 ++ [Sent4 m text]) ++ h2) in R by now rewrite <- app_assoc.
  apply run4_split in R. destruct R as (d2 & R1 & R2).
  apply run4_snoc_inv in R1. destruct R1 as (d1 & R1 & ig & rnd & E).
  apply (took_behind _ _ _ _ _ _ _ R1) in H1. destruct H1 as [B _].
  apply (took_index _ _ _ _ _ _ _ R2) in H2.
  apply send_fields in E. destruct E as (_ & _ & [(_ & _ & _ & M & _)|(_ & I & _)]); [contradiction|]. lia.
Qed.

(** ** Sending cannot fail for lack of keys to reveal *)

Lemma next_sender_has_reveals h d : history4 C our their h d -> dr_next d = SENDER -> dr_reveals d <> [].
Proof.
  intros (d0 & S & R). apply start_any_facts in S. destruct S as (_ & S & _).
  induction R as [|h d ig text rnd m d' _ IH E|h d m auth now d' text mk _ IH E A|h d m auth now d' e _ IH E].
  - congruence.
  - apply send_fields in E. destruct E as (_ & -> & _). discriminate.
  - apply accept_fields in E. destruct E as (ck & _ & _ & RV & _). intros _. rewrite RV.
    intros Q. apply app_eq_nil in Q. destruct Q as [_ Q]. apply (f_equal (@length byte)) in Q.
    unfold mac_key4 in Q. rewrite kdf_length in Q. discriminate.
  - apply decrypt4_err in E. now subst d'.
Qed.

End WithCrypto.
