(* Vocabulary for the order in which a session keeps its clients and an account keeps its sessions.  In the code both are
   hash maps, whose order of iteration is not specified and may change from call to call. *)
From Verif Require Import Base Types Crypto Encoding ClientProfile Messages Session SpecSession Account SpecAccount.
From Coq Require Import Sorting.Permutation.
Local Open Scope N_scope.

(* the same session, with its clients in another order *)
Definition reordered (s1 s2 : session) : Prop :=
  se_details s2 = se_details s1 /\ se_tagged s2 = se_tagged s1 /\ Permutation (se_instances s1) (se_instances s2).
(* the same messages, those of each client together and in their order, but the clients in another order *)
Definition mixed (out1 out2 : list bytes) : Prop :=
  exists l1 l2, out1 = concat l1 /\ out2 = concat l2 /\ Permutation l1 l2.

(* the same call with the same answer and the same messages; only expire, which concerns all clients, may mix them *)
Definition same_event (a b : event) : Prop :=
  ev_op a = ev_op b /\ ev_result a = ev_result b /\
  match ev_op a with OpExpire _ => mixed (ev_injected a) (ev_injected b) | _ => ev_injected a = ev_injected b end.
(* a run during which the order of the clients changes at any time *)
Inductive shuffled (C : Crypto) (s0 : session) : list event -> session -> Prop :=
| shuffled_nil : shuffled C s0 [] s0
| shuffled_call h s es o s' out r :
    shuffled C s0 h s -> call C es s o = (s', out, r) -> r <> Panic -> shuffled C s0 (h ++ [mkEvent o out r]) s'
| shuffled_order h s s' : shuffled C s0 h s -> reordered s s' -> shuffled C s0 h s'.

(* the same for the sessions of an account *)
Definition reordered_account (a1 a2 : account) : Prop :=
  ac_policy a2 = ac_policy a1 /\ ac_tag a2 = ac_tag a1 /\ ac_account a2 = ac_account a1 /\ ac_profile a2 = ac_profile a1 /\
  exists l, Permutation (ac_sessions a1) l /\
    Forall2 (fun x y => fst y = fst x /\ reordered (snd x) (snd y)) l (ac_sessions a2).
Definition same_account_event (a b : account_event) : Prop :=
  ae_op a = ae_op b /\ ae_result a = ae_result b /\
  match ae_op a with
  | AcExpire _ | AcCall _ (OpExpire _) => mixed (ae_injected a) (ae_injected b)
  | _ => ae_injected a = ae_injected b
  end.
Inductive shuffled_account (C : Crypto) (a0 : account) : list account_event -> account -> Prop :=
| shuffled_account_nil : shuffled_account C a0 [] a0
| shuffled_account_call h a es o a' out r :
    shuffled_account C a0 h a -> account_call C es a o = (a', out, r) -> r <> Panic ->
    shuffled_account C a0 (h ++ [mkAccountEvent o out r]) a'
| shuffled_account_order h a a' : shuffled_account C a0 h a -> reordered_account a a' -> shuffled_account C a0 h a'.
