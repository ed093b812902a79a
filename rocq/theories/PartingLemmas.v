(* The end of a conversation between two sessions, from their creation. *)
From Verif Require Import Base BaseLemmas Types Crypto CryptoProofs Encoding EncodingProofs ClientProfile Messages Fragment
  KeyManager DataV3 SpecData3 Conv3Proofs Data3Lemmas Ratchet DataV4 SpecCurve SpecData4 Conv4Proofs AKE DAKE SMP SMP4
  Protocol Session SpecSession SessionProofs SpecNet NetProofs NetAKEProofs Net3Proofs NetLemmas NetDAKEProofs Net4Proofs Net4Lemmas
  SpecParting Parting3Proofs Parting4Proofs.
Local Open Scope N_scope.

Section WithCrypto.
Context (C : Crypto).

Lemma net3_parting da db sa sb x hs l (a : bool) e s' ps r :
  let ta := if a then de_tag da else de_tag db in let tb := if a then de_tag db else de_tag da in
  let sA := if a then li_a l else li_b l in let sB := if a then li_b l else li_a l in
  start_net3 C da db sa sb x -> dh_group_ok C -> net_run C (de_tag da) (de_tag db) (mkLink (x_sa2 x) (x_sb3 x) [] []) hs l ->
  end_session C e sA tb = (s', ps, Ok r) -> env_ok e -> transportable ps ->
  (r = UMReset tb /\ status_of s' tb = Plaintext) /\
  told_or_unnoticed C ta sB (if a then li_ab l else li_ba l) ps /\
  (forall b, alternating b hs -> surely_told C ta sB ps).
Proof.
  intros ta tb sA sB H GO R EN EO TP. pose proof H as (_ & _ & LA & LB & _ & _ & PA & AB & _ & _). apply preferred_allowed in PA.
  apply net3_secured in H. destruct H as ((ka & kb & _ & _ & SEC) & _ & DA & DB). apply secured_linked in SEC.
  destruct SEC as (s0 & ssid & S0 & L0). rewrite DA, DB in L0.
  destruct a; [exact (farewell_net3 C GO da db _ _ _ s0 hs l true e s' ps r LA LB PA AB S0 L0 R EN EO TP)
    |exact (farewell_net3 C GO da db _ _ _ s0 hs l false e s' ps r LA LB PA AB S0 L0 R EN EO TP)].
Qed.

Lemma net4_parting da db sa sb x hs l (a : bool) :
  let dA := if a then da else db in
  let ta := if a then de_tag da else de_tag db in let tb := if a then de_tag db else de_tag da in
  let sA := if a then li_a l else li_b l in let sB := if a then li_b l else li_a l in let q := if a then li_ab l else li_ba l in
  start_net4 C da db sa sb x -> net_run C (de_tag da) (de_tag db) (mkLink (x_sa2 x) (x_sb3 x) [] []) hs l ->
  (forall e s' ps r, end_session C e sA tb = (s', ps, Ok r) -> env_ok e -> transportable ps ->
    (r = UMReset tb /\ status_of s' tb = Plaintext) /\
    told_or_unnoticed C ta sB q ps /\
    (speaking (de_tag da) (de_tag db) a hs -> ~ repeats_key C sB ta ps -> surely_told C ta sB ps)) /\
  (forall es timeout s' out, expire C es sA timeout = (s', out, Ok tt) -> status_of s' tb = Finished -> env_ok (es tb) ->
    exists pre ps post m, out = pre ++ ps ++ post /\ goodbye C (ev_send (es tb)) (state_of sA tb) V4 m /\
      transported dA (es tb) tb V4 m ps /\
      (transportable ps -> told_or_unnoticed C ta sB q ps /\
        (speaking (de_tag da) (de_tag db) a hs -> ~ repeats_key C sB ta ps -> surely_told C ta sB ps))).
Proof.
  intros dA ta tb sA sB q H R. pose proof H as (_ & _ & LA & LB & _ & _ & PA & AB & _ & GO & EC & _). apply preferred_allowed in PA.
  apply net4_secured in H. destruct H as ((SEC & _) & DA & DB). apply secured_linked4 in SEC.
  destruct SEC as (s0 & fa & fb & ssid & S0 & L0). rewrite DA, DB in L0.
  pose proof (farewell_net4 C GO EC da db _ _ _ s0 hs l a LA LB PA AB S0 L0 R) as X.
  destruct a; exact X.
Qed.
End WithCrypto.
