(* Every record that the library sends during a verification is a record of the protocol. *)
From Verif Require Import Base BaseLemmas Types Crypto Encoding SMP SMP4 SpecSession EncodingProofs.
From Coq Require Import Lia ZifyN.
Local Open Scope N_scope.
Section WithCrypto.
Context (C : Crypto).

Lemma smp_type n v b : 2 <= n <= 6 -> smp_record v (mkTlv n b) = true.
Proof.
  intros [A B]. unfold smp_record. cbn [tlv_type]. rewrite (proj2 (N.leb_le _ _) A). cbn [andb]. apply N.leb_le. destruct v; lia.
Qed.
Ltac ty := first [reflexivity | apply smp_type; vm_compute; split; discriminate].
Ltac opens E := repeat (let x := fresh in let e := fresh in apply bind_ok in E; destruct E as (x & e & E); try clear e).
Ltac opens4 X := repeat (apply bind_ok in X; let v := fresh in destruct X as (v & _ & X); try (match type of v with (_ * _)%type => destruct v end)).
Ltac numbers E ms := repeat (destruct ms as [|? ms]; try discriminate E); opens E.

Definition of_smp (o : smp_outcome) : Prop :=
  match o with
  | SmpReply _ r | SmpSuccess (Some r) | SmpFailed (Some r) => smp_record V3 r = true
  | _ => True
  end.
Lemma smp_dispatch_type h rnd c t o : smp_dispatch C h rnd c t = Ok o -> of_smp o.
Proof.
  unfold smp_dispatch. cbv zeta. intros E. destruct (_ || _) in E.
  { unfold smp_message_1 in E. destruct (sm_state c); try discriminate. destruct (smp1_question t) as [q buf].
    apply bind_ok in E. destruct E as ([ms rs] & _ & E). numbers E ms. destruct (sh_answer h q); opens E; injection E as <-; [ty|exact I]. }
  destruct (_ =? _) in E.
  { unfold smp_message_2 in E. destruct (sm_state c); try discriminate. cbv zeta in E.
    apply bind_ok in E. destruct E as ([ms rs] & _ & E). numbers E ms. injection E as <-. ty. }
  destruct (_ =? _) in E.
  { unfold smp_message_3 in E. destruct (sm_state c); try discriminate. cbv zeta in E.
    apply bind_ok in E. destruct E as ([ms rs] & _ & E). numbers E ms. injection E as <-. destruct (_ =? _); ty. }
  destruct (_ =? _) in E.
  { unfold smp_message_4 in E. destruct (sm_state c); try discriminate. cbv zeta in E.
    apply bind_ok in E. destruct E as ([ms rs] & _ & E). numbers E ms. injection E as <-. destruct (_ =? _); exact I. }
  destruct (_ =? _) in E; [injection E as <-; exact I|discriminate].
Qed.
Lemma smp_handle_type h rnd c t c' r : smp_handle C h rnd c t = (c', Ok (Some r)) -> smp_record V3 r = true.
Proof.
  unfold smp_handle. intros H. destruct (smp_dispatch C h rnd c t) as [o|y|] eqn:E.
  - apply smp_dispatch_type in E. destruct o as [st y|y|y|[|]]; injection H as _ H; subst; try assumption; try discriminate; ty.
  - destruct y; try discriminate H; injection H as _ <-; ty.
  - discriminate.
Qed.
Lemma smp_initiate_type h rnd c sec q c' r : smp_initiate C h rnd c sec q = (c', Ok r) -> smp_record V3 r = true.
Proof.
  unfold smp_initiate. intros H. cbv zeta in H. destruct (sm_state c); try discriminate. destruct (host_fp C h); try discriminate.
  injection H as _ <-. destruct q; reflexivity.
Qed.
Lemma smp4_handle_type a rnd c t c' r : smp4_handle C a rnd c t = (c', Ok (Some r)) -> smp_record V4 r = true.
Proof.
  unfold smp4_handle. intros H. destruct (smp4_dispatch C a rnd c t) as [[c1 x]|x|] eqn:E; try discriminate.
  injection H as _ ->. unfold smp4_dispatch in E. cbv zeta in E.
  destruct (_ =? _) in E; [injection E as _ <-; reflexivity|].
  destruct (_ =? _) in E.
  { apply bind_ok in E. destruct E as ([st y] & X & E). injection E as _ ->. unfold smp4_message_1 in X. cbv zeta in X.
    destruct (s4_state c); try discriminate. opens4 X.
    destruct (a _); [|discriminate]. opens4 X.
    injection X as _ <-. reflexivity. }
  destruct (_ =? _) in E.
  { apply bind_ok in E. destruct E as ([st y] & X & E). injection E as _ ->. unfold smp4_message_2 in X. cbv zeta in X.
    destruct (s4_state c); try discriminate. opens4 X.
    injection X as _ <-. reflexivity. }
  destruct (_ =? _) in E.
  { apply bind_ok in E. destruct E as ([st y] & X & E). injection E as _ ->. unfold smp4_message_3 in X. cbv zeta in X.
    destruct (s4_state c); try discriminate. opens4 X.
    injection X as _ <-. reflexivity. }
  destruct (_ =? _) in E; [|discriminate]. apply bind_ok in E. destruct E as (? & _ & E). discriminate.
Qed.
Lemma smp4_initiate_type rnd c sec q c' r : smp4_initiate C rnd c sec q = (c', Ok r) -> smp_record V4 r = true.
Proof.
  unfold smp4_initiate. cbv zeta. intros H.
  assert (X : forall m : res (smp4_state * tlv), (forall st t, m = Ok (st, t) -> smp_record V4 t = true) ->
    (match m with
      | Ok (st, t) => (mkSmp4 S4InProgress st (s4_us c) (s4_them c) (s4_ssid c), Ok t)
      | Err e => (c, Err e)
      | Panic => (c, Panic)
      end) = (c', Ok r) -> smp_record V4 r = true).
  { intros m T E. destruct m as [[st t]|x|]; try discriminate. injection E as _ <-. eapply T. reflexivity. }
  destruct (s4_status c); try discriminate; (revert H; apply X; intros st t E;
    apply bind_ok in E; destruct E as (? & _ & E); apply bind_ok in E; destruct E as (? & _ & E);
    destruct (negb _); [discriminate|]; destruct (negb _); [discriminate|];
    apply bind_ok in E; destruct E as (? & _ & E); injection E as _ <-; reflexivity).
Qed.
End WithCrypto.
