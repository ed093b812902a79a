(* The curve of the toy instance satisfies what is asked of a curve. *)
From Verif Require Import Base Crypto ToyCrypto SpecCurve.
From Coq Require Import ZArith Znumtheory Lia List.
Import ListNotations.
Local Open Scope Z_scope.

Definition below (n : nat) : list Z := map Z.of_nat (seq 0 n).
Lemma below_in n z : 0 <= z < Z.of_nat n -> In z (below n).
Proof.
  intros H. unfold below. apply in_map_iff. exists (Z.to_nat z). split; [lia|]. apply in_seq. lia.
Qed.

(* primality of small numbers by trial division *)
Lemma prime_by_trial p n : p = Z.of_nat n -> 1 < p ->
  forallb (fun k => (k <=? 1) || negb (p mod k =? 0))%bool (below n) = true -> prime p.
Proof.
  intros E P1 H. apply prime_alt. split; [exact P1|]. intros k B D.
  rewrite forallb_forall in H. specialize (H k (below_in n k ltac:(lia))).
  apply Bool.orb_true_iff in H. destruct H as [H|H]; [lia|].
  apply Z.mod_divide in D; [|lia]. rewrite D in H. discriminate.
Qed.

Lemma toy_curve_ok : curve_ok toy.
Proof.
  split; [|split; [reflexivity|split; [|split; [|split; [reflexivity|vm_compute; reflexivity]]]]].
  - apply (prime_by_trial _ 211); [reflexivity|reflexivity|vm_compute; reflexivity].
  - assert (H : forallb (fun x => negb ((x * x) mod 211 =? (-1) mod 211)) (below 211) = true)
      by (vm_compute; reflexivity).
    intros x E. rewrite forallb_forall in H.
    specialize (H (x mod 211) (below_in 211 _ (Z.mod_pos_bound x 211 ltac:(lia)))).
    rewrite <- Z.mul_mod in H by lia. change (c_ed_p toy) with 211 in E. change (c_ed_d toy) with (-1) in E.
    rewrite E in H. discriminate.
  - split; [split; [discriminate|reflexivity]|]. split; [split; [discriminate|reflexivity]|]. reflexivity.
Qed.
