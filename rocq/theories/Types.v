(* Small shared enumerations of src/lib.rs. *)
From Verif Require Import Base.
Local Open Scope N_scope.

(* src/lib.rs:161-168 `enum Version`; the derived order is None < V3 < V4 < Unsupported(_) *)
Inductive version : Type := VNone | V3 | V4 | VUnsupported (v : N).

Definition version_eqb (a b : version) : bool :=
  match a, b with
  | VNone, VNone | V3, V3 | V4, V4 => true
  | VUnsupported x, VUnsupported y => x =? y
  | _, _ => false
  end.
Definition version_rank (a : version) : N :=
  match a with VNone => 0 | V3 => 1 | V4 => 2 | VUnsupported v => 3 + v end.

(* src/utils.rs:5-9 `alloc::vec_unique`: sort, then remove repeated elements. *)
Fixpoint insert_version (v : version) (l : list version) : list version :=
  match l with
  | [] => [v]
  | x :: l' =>
      if version_rank v <? version_rank x then v :: l
      else if version_rank v =? version_rank x then l
      else x :: insert_version v l'
  end.
Definition vec_unique (l : list version) : list version := fold_right insert_version [] l.

Definition contains_version (v : version) (l : list version) : bool := existsb (version_eqb v) l.

(* src/lib.rs:170-196 `struct Policy: u32` *)
Record policy : Type := mkPolicy {
  allow_v3 : bool;
  allow_v4 : bool;
  require_encryption : bool;
  send_whitespace_tag : bool;
  whitespace_start_ake : bool;
  error_start_ake : bool }.
