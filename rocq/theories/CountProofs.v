(* The data messages of a conversation are numbered without gaps. *)
From Coq Require Import Lia ZifyN ZifyNat.
From Verif Require Import Base BaseLemmas Types Crypto CryptoProofs Encoding EncodingProofs Messages
  KeyManager KeyManagerProofs DataV3 DataV3Proofs Ratchet DataV4 SpecData3 SpecData4 DataV4Proofs
  History3Proofs History4Proofs Protocol Session SpecSession SessionProofs SessionSendProofs SpecFollow SpecDeny SpecCount.
Import SpecSession.
Local Open Scope N_scope.

Lemma numbered_nil {A} first next : @numbered A first next [].
Proof. split; [discriminate|]. intros [|? ?]; discriminate. Qed.
Lemma numbered_snoc {A} (first : A -> Prop) next l b : numbered first next l -> (l = [] -> first b) ->
  (forall l' a, l = l' ++ [a] -> next a b) -> numbered first next (l ++ [b]).
Proof.
  intros [F N] F' N'. split.
  - intros a l' E. destruct l as [|x l]; cbn in E; injection E as <- <-; [now apply F'|]. now eapply F.
  - intros l1 x y l2 E. destruct l2 as [|z l2 _] using rev_ind.
    + replace (l1 ++ [x; y]) with ((l1 ++ [x]) ++ [y]) in E by now rewrite <- app_assoc. apply app_inj_tail in E. destruct E as [E <-]. eapply N'. exact E.
    + replace (l1 ++ x :: y :: l2 ++ [z]) with ((l1 ++ x :: y :: l2) ++ [z]) in E by now rewrite <- app_assoc. apply app_inj_tail in E. destruct E as [E _]. eapply N. exact E.
Qed.

Section WithCrypto.
Context (C : Crypto) (our their : N).

Definition sent3 (h : list event3) : list data3 := flat_map (fun e => match e with Sent3 m _ => [m] | _ => [] end) h.
Definition sent4 (h : list event4) : list data4 := flat_map (fun e => match e with Sent4 m _ => [m] | _ => [] end) h.

(** ** OTRv3 *)

Definition count3 (h : list event3) (k : key_manager) : Prop :=
  (sent3 h = [] -> be_val (km_our_ctr k) = 0) /\
  (forall l a, sent3 h = l ++ [a] -> d3_sender_keyid a <= own_id k /\ d3_receiver_keyid a <= peer_id k /\
     (d3_sender_keyid a = own_id k -> d3_receiver_keyid a = peer_id k -> be_val (km_our_ctr k) = ctr3 a) /\
     (d3_sender_keyid a <> own_id k \/ d3_receiver_keyid a <> peer_id k -> be_val (km_our_ctr k) = 0)).

Lemma recv_count3 h k m auth rnd k' r e : sent3 [e] = [] -> count3 h k -> recv_result3 C k m auth rnd k' r -> count3 (h ++ [e]) k'.
Proof.
  intros E [N S] R. apply recv_ids in R. destruct R as (R1 & R2 & R3 & R4). unfold count3, sent3 in *. rewrite flat_map_app, E, app_nil_r.
  assert (D : (own_id k' = own_id k /\ peer_id k' = peer_id k /\ km_our_ctr k' = km_our_ctr k) \/
     ((own_id k' <> own_id k \/ peer_id k' <> peer_id k) /\ be_val (km_our_ctr k') = 0)).
  { destruct (N.eq_dec (own_id k') (own_id k)) as [E1|E1]; [destruct (N.eq_dec (peer_id k') (peer_id k)) as [E2|E2]|].
    - left. destruct (R3 E1 E2) as (-> & _). auto.
    - right. split; [now right|]. destruct R4 as (-> & _); [now right|]. reflexivity.
    - right. split; [now left|]. destruct R4 as (-> & _); [now left|]. reflexivity. }
  destruct D as [(-> & -> & ->)|(D & ->)]; [now split|]. split; [reflexivity|]. intros l a Q. apply S in Q. destruct Q as (Q1 & Q2 & _).
  split; [lia|]. split; [lia|]. split; [|reflexivity]. lia.
Qed.

Lemma run3_count k0 h k : wf3 k0 -> be_val (km_our_ctr k0) = 0 -> run3 C our their k0 h k -> count3 h k /\ numbered first3 next3 (sent3 h).
Proof.
  intros W Z R. induction R as [|h k ig text m k' R IH E|h k m auth rnd k' text R IH E|h k m auth rnd k' e R IH E].
  - split; [|apply numbered_nil]. split; [auto|]. intros [|? ?] ? ?; discriminate.
  - destruct IH as [[N S] IH]. pose proof (run3_wf _ _ _ _ _ _ W R) as Wk.
    pose proof (encrypt3_step _ _ _ _ _ _ _ _ Wk E) as (SO & ST & S1 & S2 & _ & EC & _). apply encrypt3_ok in E.
    destruct E as (ek & mk & c & TK & _ & _ & _ & _ & _ & _ & _ & M4 & _). apply ctr_take_ok in TK. destruct TK as [TK _].
    assert (OI : own_id k' = own_id k) by (unfold own_id; now rewrite SO).
    assert (PI : peer_id k' = peer_id k) by (unfold peer_id; now rewrite ST).
    unfold count3, sent3 in *. rewrite flat_map_app. cbn [flat_map app]. split.
    + split; [intros Q; apply app_eq_nil in Q; destruct Q; discriminate|]. intros l a Q. apply app_inj_tail in Q. destruct Q as [_ <-].
      split; [lia|]. split; [lia|]. split; [intros; unfold ctr3; now rewrite EC|lia].
    + apply numbered_snoc; [assumption| |].
      * intros Q. unfold first3, ctr3. rewrite M4, TK, (N Q). reflexivity.
      * intros l a Q. apply S in Q. destruct Q as (Q1 & Q2 & Q3 & Q4). unfold next3, ctr3. rewrite M4, TK, S1, S2.
        destruct (N.eq_dec (d3_sender_keyid a) (own_id k)) as [E1|E1]; [destruct (N.eq_dec (d3_receiver_keyid a) (peer_id k)) as [E2|E2]|].
        -- left. rewrite (Q3 E1 E2). unfold ctr3. auto.
        -- right. rewrite Q4 by now right. lia.
        -- right. rewrite Q4 by now left. lia.
  - destruct IH as [CN IH]. apply decrypt3_cases in E; [|discriminate]. split; [eapply recv_count3; [reflexivity|eassumption..]|].
    unfold sent3 in *. rewrite flat_map_app. cbn [flat_map app]. now rewrite app_nil_r.
  - destruct IH as [CN IH]. apply decrypt3_cases in E; [|discriminate]. split; [eapply recv_count3; [reflexivity|eassumption..]|].
    unfold sent3 in *. rewrite flat_map_app. cbn [flat_map app]. now rewrite app_nil_r.
Qed.

(** ** OTRv4 *)

Definition count4 (h : list event4) (d : double_ratchet) : Prop :=
  (sent4 h = [] -> ra_message_id (dr_sender d) = 0 /\ dr_pn d = 0) /\
  (forall l a, sent4 h = l ++ [a] -> ra_message_id (dr_sender d) = d4_j a + 1 /\ dr_pn d = d4_pn a /\
     (dr_next d = RECEIVER -> dr_i d - 1 = d4_i a) /\ (dr_next d = SENDER -> d4_i a < dr_i d)).

Lemma count4_snoc h d ig text extra rnd m d' x : count4 h d -> numbered first4 next4 (sent4 h) -> encrypt4 C our their d ig text extra rnd = Ok (m, d') ->
  count4 (h ++ [Sent4 m x]) d' /\ numbered first4 next4 (sent4 h ++ [m]).
Proof.
    intros [N S] IH E. apply encrypt4_ok in E. destruct E as (d1 & rv & RD & NX & _ & _ & -> & _ & M1 & M2 & M3 & _).
    split.
    + unfold count4, sent4 in *. rewrite flat_map_app. cbn [flat_map app]. split; [intros Q; apply app_eq_nil in Q; destruct Q; discriminate|]. intros l a Q. apply app_inj_tail in Q. destruct Q as [_ <-].
      unfold dr_with_sender. cbn. rewrite NX, M1, M2, M3. split; [reflexivity|]. split; [reflexivity|]. split; [reflexivity|discriminate].
    + apply numbered_snoc; [assumption| |].
      * intros Q. apply N in Q. destruct Q as [Q1 Q2]. unfold first4. rewrite M1, M3. destruct RD as [_|d1 SN RS]; [auto|].
        apply rotate_sender_ok in RS. destruct RS as (ec & sh & _ & _ & _ & -> & _). cbn. auto.
      * intros l a Q. apply S in Q. destruct Q as (Q1 & Q2 & Q3 & Q4). unfold next4. rewrite M1, M2, M3. destruct RD as [RC|d1 SN RS].
        -- left. rewrite <- (Q3 RC). auto.
        -- right. apply rotate_sender_ok in RS. destruct RS as (ec & sh & _ & _ & _ & -> & _). cbn. specialize (Q4 SN). split; [lia|auto].
Qed.
Lemma run4_count d0 h d : ra_message_id (dr_sender d0) = 0 -> dr_pn d0 = 0 -> run4 C our their d0 h d ->
  count4 h d /\ numbered first4 next4 (sent4 h).
Proof.
  intros Z1 Z2 R. induction R as [|h d ig text rnd m d' R IH E|h d m auth now d' text mk R IH E A|h d m auth now d' e R IH E].
  - split; [|apply numbered_nil]. split; [auto|]. intros [|? ?] ? ?; discriminate.
  - destruct IH as [CN IH]. destruct (count4_snoc _ _ _ _ _ _ _ _ text CN IH E) as [A B]. split; [exact A|].
    unfold sent4 in *. rewrite flat_map_app. exact B.
  - destruct IH as [[N S] IH]. apply decrypt4_ok in E. destruct E as (ck & AC & _). unfold count4, sent4 in *. rewrite flat_map_app. cbn [flat_map app].
    rewrite app_nil_r. split; [|assumption]. destruct AC as [_ _ _|sh dh _ NX _ _ _ _ _]; [split; [exact N|exact S]|]. cbn.
    split; [assumption|]. intros l a Q. destruct (S l a Q) as (Q1 & Q2 & Q3 & Q4). split; [assumption|]. split; [assumption|]. split; [discriminate|].
    intros _. specialize (Q3 NX). lia.
  - destruct IH as [[N S] IH]. apply decrypt4_err in E. subst d'. unfold count4, sent4 in *. rewrite flat_map_app. cbn [flat_map app].
    rewrite app_nil_r. split; [split|]; assumption.
Qed.

(** ** Sessions *)

Lemma sent_is3 g l : Forall2 is3 g l -> sent g = map MData (sent3 l).
Proof.
  induction 1 as [|x y g l X _ IH]; [reflexivity|]. unfold sent, sent3 in *. cbn [flat_map]. rewrite map_app, <- IH. f_equal.
  destruct x as [m t|em t|em], y as [m' t'|m' a [t'|]]; try destruct m; cbn in X; try contradiction; try reflexivity. destruct X as [-> _]. reflexivity.
Qed.
Lemma sent_is4 g l : Forall2 is4 g l -> sent g = map MData4 (sent4 l).
Proof.
  induction 1 as [|x y g l X _ IH]; [reflexivity|]. unfold sent, sent4 in *. cbn [flat_map]. rewrite map_app, <- IH. f_equal.
  destruct x as [m t|em t|em], y; try destruct m; cbn in X; try contradiction; try reflexivity. destruct X as [-> _]. reflexivity.
Qed.
End WithCrypto.

Section Conversations.
Context (C : Crypto).

Lemma conversation_numbered3 d h s t g : conversation_of C d h s t g -> conversation_version s t = Some V3 ->
  exists l, sent g = map MData l /\ numbered first3 next3 l.
Proof.
  intros (ev & h1 & gs & _ & _ & _ & K) V. unfold conversation_version in V. unfold keys_followed in K. destruct (state_of s t); try discriminate.
  destruct K as (-> & -> & l & F & key & tkey & r0 & r1 & k0 & E & R). exists (sent3 l). split; [now apply sent_is3|].
  apply run3_count in R; [apply R|eapply km_new_wf; exact E|]. unfold km_new in E. destruct (_ || _); [discriminate|].
  destruct (kr_new C 1 key r0 r1); cbn [bind] in E; try discriminate. destruct (pr_new 1 tkey); cbn [bind] in E; try discriminate.
  injection E as <-. reflexivity.
Qed.
Lemma conversation_numbered4 d h s t g : conversation_of C d h s t g -> conversation_version s t = Some V4 ->
  exists l, sent g = map MData4 l /\ numbered first4 next4 l.
Proof.
  intros (ev & h1 & gs & _ & _ & _ & K) V. unfold conversation_version in V. unfold keys_followed in K. destruct (state_of s t); try discriminate.
  destruct K as (-> & -> & l & F & dr0 & ST & R). exists (sent4 l). split; [now apply sent_is4|].
  apply run4_count in R; [apply R| |].
  - destruct ST as [ST|ST]; [destruct ST as (? & ? & ? & ? & ? & ? & ? & _ & ->); reflexivity|].
    destruct ST as (? & ? & ? & ? & ? & ? & ? & ? & ? & ? & _ & RS). apply rotate_sender_ok in RS. destruct RS as (? & ? & _ & _ & _ & -> & _). reflexivity.
  - destruct ST as [ST|ST]; [destruct ST as (? & ? & ? & ? & ? & ? & ? & _ & ->); reflexivity|].
    destruct ST as (? & ? & ? & ? & ? & ? & ? & ? & ? & ? & _ & RS). apply rotate_sender_ok in RS. destruct RS as (? & ? & _ & _ & _ & -> & _). reflexivity.
Qed.
(* the message that ends a conversation is numbered like the others *)
Lemma start_count4 dr0 : starts_sender4 C dr0 \/ starts_receiver4 C dr0 -> ra_message_id (dr_sender dr0) = 0 /\ dr_pn dr0 = 0.
Proof.
  intros [ST|ST]; [destruct ST as (? & ? & ? & ? & ? & ? & ? & _ & ->); auto|].
  destruct ST as (? & ? & ? & ? & ? & ? & ? & ? & ? & ? & _ & RS). apply rotate_sender_ok in RS. destruct RS as (? & ? & _ & _ & _ & -> & _). auto.
Qed.
Lemma goodbye_numbered3 d h s t g rnd v m : conversation_of C d h s t g -> conversation_version s t = Some V3 -> goodbye C rnd (state_of s t) v m ->
  exists l m3, v = V3 /\ m = MData m3 /\ sent g = map MData l /\ numbered first3 next3 (l ++ [m3]).
Proof.
  intros (ev & h1 & gs & _ & _ & _ & K) V G. unfold conversation_version in V. unfold keys_followed in K. destruct (state_of s t); try discriminate.
  destruct K as (-> & -> & l & F & key & tkey & r0 & r1 & k0 & E & R). cbn [goodbye] in G. destruct G as (-> & m3 & k' & -> & EN).
  exists (sent3 l), m3. split; [reflexivity|]. split; [reflexivity|]. split; [now apply sent_is3|].
  assert (R' := r3_send _ _ _ _ _ _ _ _ _ _ R EN). apply run3_count in R'; [|eapply km_new_wf; exact E|].
  - destruct R' as [_ R']. unfold sent3 in *. rewrite flat_map_app in R'. exact R'.
  - unfold km_new in E. destruct (_ || _); [discriminate|].
    destruct (kr_new C 1 key r0 r1); cbn [bind] in E; try discriminate. destruct (pr_new 1 tkey); cbn [bind] in E; try discriminate.
    injection E as <-. reflexivity.
Qed.
Lemma goodbye_numbered4 d h s t g rnd v m : conversation_of C d h s t g -> conversation_version s t = Some V4 -> goodbye C rnd (state_of s t) v m ->
  exists l m4, v = V4 /\ m = MData4 m4 /\ sent g = map MData4 l /\ numbered first4 next4 (l ++ [m4]).
Proof.
  intros (ev & h1 & gs & _ & _ & _ & K) V G. unfold conversation_version in V. unfold keys_followed in K. destruct (state_of s t) as [|? ? ? ?|? ? dr1 ?|]; try discriminate.
  destruct K as (-> & -> & l & F & dr0 & ST & R). cbn [goodbye] in G. destruct G as (-> & m4 & k' & -> & EN).
  exists (sent4 l), m4. split; [reflexivity|]. split; [reflexivity|]. split; [now apply sent_is4|].
  apply start_count4 in ST. destruct ST as [S1 S2]. apply run4_count in R; [|assumption..]. destruct R as [CN R].
  assert (CN' : count4 l (fst (dr_collect_reveals dr1))) by exact CN.
  now destruct (count4_snoc C _ _ _ _ _ _ _ _ _ _ [] CN' R EN) as [_ X].
Qed.

Lemma end_numbered3 d h s t g e s' out r : history C d h s -> conversation_of C d h s t g -> conversation_version s t = Some V3 ->
  end_session C e s t = (s', out, r) -> r <> Panic ->
  exists l m, sent g = map MData l /\ transported d e t V3 (MData m) out /\ numbered first3 next3 (l ++ [m]).
Proof.
  intros HI CO V H NP. apply history_inv in HI. destruct HI as [SI <-].
  assert (S : status_of s t = Encrypted) by (unfold conversation_version in V; unfold status_of; destruct (state_of s t); now try discriminate).
  destruct (end_sends C e s t s' out r SI S H NP) as (v & m & A & B & _).
  destruct (goodbye_numbered3 _ _ _ _ _ _ _ _ CO V A) as (l & m3 & -> & -> & D & E). eauto.
Qed.
Lemma end_numbered4 d h s t g e s' out r : history C d h s -> conversation_of C d h s t g -> conversation_version s t = Some V4 ->
  end_session C e s t = (s', out, r) -> r <> Panic ->
  exists l m, sent g = map MData4 l /\ transported d e t V4 (MData4 m) out /\ numbered first4 next4 (l ++ [m]).
Proof.
  intros HI CO V H NP. apply history_inv in HI. destruct HI as [SI <-].
  assert (S : status_of s t = Encrypted) by (unfold conversation_version in V; unfold status_of; destruct (state_of s t); now try discriminate).
  destruct (end_sends C e s t s' out r SI S H NP) as (v & m & A & B & _).
  destruct (goodbye_numbered4 _ _ _ _ _ _ _ _ CO V A) as (l & m3 & -> & -> & D & E). eauto.
Qed.
Lemma Forall2_pick {A B} (P : A -> B -> Prop) l l' x : Forall2 P l l' -> In x l -> exists y l1 l2, l' = l1 ++ y :: l2 /\ P x y.
Proof.
  induction 1 as [|a b l l' P0 _ IH]; [easy|]. intros [<-|I]; [exists b, [], l'; auto|]. destruct (IH I) as (y & l1 & l2 & -> & Q).
  exists y, (b :: l1), l2. auto.
Qed.
Lemma expire_numbered d h s t g es timeout s' out r : history C d h s -> conversation_of C d h s t g ->
  idle (ev_now (es t)) timeout (state_of s t) -> expire C es s timeout = (s', out, r) -> r <> Panic ->
  exists l m o o1 o2, sent g = map MData4 l /\ out = o1 ++ o ++ o2 /\ transported d (es t) t V4 (MData4 m) o /\ numbered first4 next4 (l ++ [m]).
Proof.
  intros HI CO ID H NP. apply history_inv in HI. destruct HI as [SI <-]. apply expire_total in H as R; [|assumption]. subst r.
  apply expire_ok in H; [|assumption]. destruct H as (_ & _ & outs & -> & F).
  assert (V : conversation_version s t = Some V4) by (destruct ID as (? & ? & ? & ? & E & _); unfold conversation_version; now rewrite E).
  assert (I : In t (map fst (se_instances s))).
  { unfold idle, state_of in ID. destruct (get_inst t (se_instances s)) eqn:G; [apply in_keys; congruence|]. destruct ID as (? & ? & ? & ? & E & _). discriminate E. }
  destruct (Forall2_pick _ _ _ _ F I) as (o & l1 & l2 & -> & [[X _]|(_ & m & A & B)]); [contradiction|].
  destruct (goodbye_numbered4 _ _ _ _ _ _ _ _ CO V A) as (l & m4 & _ & -> & D & E).
  exists l, m4, o, (concat l1), (concat l2). rewrite concat_app. cbn [concat]. auto.
Qed.
End Conversations.
