(* Property C77: whom a session keeps an entry for. *)
From Verif Require Import Base Types Crypto ToyCrypto Fragment Messages Session SpecSession SpecStore StoreLemmas SessionExamples NetExamples
  StartExamples.
Local Open Scope N_scope.

(** * C77 A session keeps an entry for the clients it has heard of *)

(* A client is listed precisely if at some time a fragment or message from it got through, or the user started a
   conversation with it.  (h1 and s1: the calls before and the state of the session then.) *)
Theorem C77_listed_partial C d h s t : history C d h s -> (In t (ses_instances s) <->
  t <> 0 /\ exists h1 ev h2 s1, h = h1 ++ ev :: h2 /\ history C d h1 s1 /\ run C s1 (ev :: h2) s /\ introduces C s1 (ev_op ev) t).
Proof. apply history_listed. Qed.
Print Assumptions C77_listed_partial.

(* What others can make a session store is bounded by no number much below the number of instance tags: n payloads of 37
   bytes, of which the user notices nothing, make it keep n entries. *)
Theorem C77_filled C d (e : env) n : enabled d -> N.of_nat n <= 4294967040 ->
  exists h s, history C d h s /\ length h = n /\ length (ses_instances s) = n /\
    Forall (fun ev => exists p, ev_op ev = OpReceive p /\ length p = 37%nat /\ ev_injected ev = [] /\
                                ev_result ev = Ok (AnMessage UMNone)) h.
Proof. intros EN N. destruct (fills C d e n EN N) as (h & s & H & L & F & K). exists h, s. auto. Qed.
Print Assumptions C77_filled.

Theorem C77_bounded_refuted : ~ (forall C d h s, history C d h s ->
  (forall ev, In ev h -> ev_result ev = Ok (AnMessage UMNone)) -> (length (ses_instances s) <= 1000)%nat).
Proof.
  intros B. destruct (C77_filled toy xs_alice (xs_ea x21 0) 1001) as (h & s & H & _ & L & F).
  - left. reflexivity.
  - vm_compute. discriminate.
  - specialize (B toy xs_alice h s H). rewrite L in B. assert (X : (1001 <= 1000)%nat); [|apply PeanoNat.Nat.leb_le in X; discriminate X].
    apply B. intros ev I. rewrite Forall_forall in F. destruct (F ev I) as (p & _ & _ & _ & R). exact R.
Qed.
Print Assumptions C77_bounded_refuted.

Example C77_ex : history toy xs_alice za_h za_s /\ In 400 (ses_instances za_s) /\
  (exists em, introduces toy (snd za_end1) (OpReceive auth_r) 400 /\ carries toy (snd za_end1) auth_r em /\ em_sender em = 400) /\
  ~ In 401 (ses_instances za_s).
Proof.
  split; [exact za_run|]. split; [vm_compute; auto|]. split; [|vm_compute; intuition discriminate].
  exists auth_r_em. split; [|split; [apply auth_r_carried|reflexivity]]. split; [left; reflexivity|]. right. exists auth_r_em.
  split; [apply auth_r_carried|]. split; [|reflexivity]. split; [reflexivity|]. split; [vm_compute; discriminate|]. left. split; vm_compute; [discriminate|reflexivity].
Qed.
