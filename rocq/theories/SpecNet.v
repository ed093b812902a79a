(* Vocabulary for the properties of two sessions that exchange messages through a network: A and B, each
   with its own account, from the first query message on. *)
From Verif Require Import Base Types Crypto Encoding ClientProfile Messages Fragment KeyManager DataV3 Ratchet DataV4
  AKE DAKE SMP SMP4 Protocol Session SpecWire SpecAKE SpecDAKE SpecCurve SpecData4 SpecSession.
Local Open Scope N_scope.

(** ** Transport *)

(* The messages that one call hands to the transport are received one after the other.  At most the last
   of them makes the receiver use its host or random values, so one [env] serves for all. *)
Fixpoint receive_all (C : Crypto) (e : env) (s : session) (ps : list bytes)
  : session * list bytes * list (res user_message) :=
  match ps with
  | [] => (s, [], [])
  | p :: ps =>
      let '(s1, out, r) := receive C e s p in
      let '(s2, outs, rs) := receive_all C e s1 ps in (s2, out ++ outs, r :: rs)
  end.
(* n incomplete parts, then the answer to the whole message *)
Definition answered (n : nat) (r : res user_message) : list (res user_message) :=
  repeat (Ok UMNone) (n - 1) ++ [r].

(* What one call sends is at most 100 MiB in all, and each fragment at most 250 KiB and its header. *)
Definition transportable (ps : list bytes) : Prop :=
  N.of_nat (length (concat ps)) <= 104857600 /\
  ((1 < length ps)%nat -> Forall (fun p => N.of_nat (length p) <= 256036) ps).
(* a message identifier for fragments has four bytes *)
Definition env_ok (e : env) : Prop := length (ev_fragment e) = 4%nat.
Definition legal_details (d : details) : Prop := 256 <= de_tag d < 4294967296.

(** ** The key exchange *)

(* the client is not in the middle of anything with client t: no half-received message, and no message of
   a key exchange of its own that client t might still answer *)
Definition resting (s : session) (t : N) : Prop :=
  let i := entry t (se_instances s) in
  un_map (am_unordered (in_assembler i)) = [] /\
  match in_ake i with AkeAwaitingDHKey _ _ | AkeAwaitingRevealSig _ _ _ => False | _ => True end /\
  match in_dake i with DakeAwaitingAuthR _ => False | _ => True end.

(* A sends a query message.  B answers it and from then on every answer is delivered. *)
Record exchange (C : Crypto) (sa sb : session) : Type := mkExchange {
  x_e0 : env; x_e1 : env; x_e2 : env; x_e3 : env; x_e4 : env;   (* used by B, A, B, A, B *)
  x_sa1 : session; x_sa2 : session; x_sb1 : session; x_sb2 : session; x_sb3 : session;
  x_p0 : list bytes; x_p1 : list bytes; x_p2 : list bytes; x_p3 : list bytes; x_p4 : list bytes;
  x_p5 : list bytes;
  x_r1 : list (res user_message); x_r2 : list (res user_message); x_r3 : list (res user_message);
  x_r4 : list (res user_message); x_r5 : list (res user_message);
  x_query : ses_query sa = (sa, x_p0, Ok tt);
  x_step1 : receive_all C x_e0 sb x_p0 = (x_sb1, x_p1, x_r1);
  x_step2 : receive_all C x_e1 sa x_p1 = (x_sa1, x_p2, x_r2);
  x_step3 : receive_all C x_e2 x_sb1 x_p2 = (x_sb2, x_p3, x_r3);
  x_step4 : receive_all C x_e3 x_sa1 x_p3 = (x_sa2, x_p4, x_r4);
  x_step5 : receive_all C x_e4 x_sb2 x_p4 = (x_sb3, x_p5, x_r5);
  (* nobody crashes, and the transport can carry everything *)
  x_alive : ~ In Panic (x_r1 ++ x_r2 ++ x_r3 ++ x_r4 ++ x_r5);
  x_carried : Forall transportable [x_p1; x_p2; x_p3; x_p4];
  x_envs : Forall env_ok [x_e0; x_e1; x_e2; x_e3; x_e4] }.
Arguments x_e0 {C sa sb}. Arguments x_e1 {C sa sb}. Arguments x_e2 {C sa sb}. Arguments x_e3 {C sa sb}.
Arguments x_e4 {C sa sb}. Arguments x_sa1 {C sa sb}. Arguments x_sa2 {C sa sb}. Arguments x_sb1 {C sa sb}.
Arguments x_sb2 {C sa sb}. Arguments x_sb3 {C sa sb}. Arguments x_p0 {C sa sb}. Arguments x_p1 {C sa sb}.
Arguments x_p2 {C sa sb}. Arguments x_p3 {C sa sb}. Arguments x_p4 {C sa sb}. Arguments x_p5 {C sa sb}.
Arguments x_r1 {C sa sb}. Arguments x_r2 {C sa sb}. Arguments x_r3 {C sa sb}. Arguments x_r4 {C sa sb}.
Arguments x_r5 {C sa sb}. Arguments x_query {C sa sb}. Arguments x_step1 {C sa sb}.
Arguments x_step2 {C sa sb}. Arguments x_step3 {C sa sb}. Arguments x_step4 {C sa sb}.
Arguments x_step5 {C sa sb}. Arguments x_alive {C sa sb}. Arguments x_carried {C sa sb}.
Arguments x_envs {C sa sb}.

(* the message m of the exchange went out as ps *)
Definition sent_as (C : Crypto) (d : details) (e : env) (receiver : N) (v : version) (ps : list bytes)
    (m : encoded_type) : Prop :=
  transported d e receiver v m ps /\ wire_ok C (mkEncoded v (de_tag d) receiver m).

(* OTRv3: no value in the exchange is one that the other side must refuse (D-H keys outside the admitted
   range, an all-zero hash or MAC) *)
Definition plain_run3 (C : Crypto) {sa sb : session} (x : exchange C sa sb) : Prop :=
  dh_public_ok C (dh_public (dh_new C (ev_dh (x_e0 x)))) /\
  dh_public_ok C (dh_public (dh_new C (ev_dh (x_e1 x)))) /\
  (forall m, sent_as C (se_details sb) (x_e0 x) 0 V3 (x_p1 x) m -> unexceptional C m) /\
  (forall m, sent_as C (se_details sb) (x_e2 x) (de_tag (se_details sa)) V3 (x_p3 x) m -> unexceptional C m) /\
  (forall m, sent_as C (se_details sa) (x_e3 x) (de_tag (se_details sb)) V3 (x_p4 x) m -> unexceptional C m).

(* OTRv3: both hosts supply a working DSA key when they are asked for it, and the run is plain *)
Definition honest3 (C : Crypto) {sa sb : session} (x : exchange C sa sb) : Prop :=
  (exists ka kb, dsa_key_ok C ka /\ dsa_key_ok C kb /\ ev_dsa (x_e3 x) = Some ka /\ ev_dsa (x_e2 x) = Some kb) /\
  length (ev_r (x_e0 x)) = 16%nat /\ plain_run3 C x.

(* Two sessions with any past, not in the middle of anything with each other, go through the exchange in
   OTRv3: it is the newest version that A allows, and B allows it. *)
Definition start_net3 (C : Crypto) (da db : details) (sa sb : session) (x : exchange C sa sb) : Prop :=
  (exists ha, history C da ha sa) /\ (exists hb, history C db hb sb) /\ legal_details da /\ legal_details db /\
  resting sa (de_tag db) /\ resting sb (de_tag da) /\ preferred da V3 /\ allowed db V3 /\ dh_params_ok C /\ honest3 C x.

(* OTRv4: no value in the exchange is one that the other side must refuse (keys that generate no group, a sum
   of challenges or a scalar of a signature that is zero).  [e0], [e1], [e2] provide the random values of the
   Identity, Auth-R and Auth-I messages. *)
Definition nonzero_ring (sg : ring_sig) : Prop :=
  rs_c1 sg <> 0%Z /\ rs_r1 sg <> 0%Z /\ rs_c2 sg <> 0%Z /\ rs_r2 sg <> 0%Z /\ rs_c3 sg <> 0%Z /\ rs_r3 sg <> 0%Z.
Definition plain_run4 (C : Crypto) (da db : details) (e0 e1 e2 : env) : Prop :=
  forall stb im, dake_initiate C (ev_dake_host e0) (ev_dake e0) DakeInitial = (stb, Ok im) ->
  good_keys C (id_y im) (id_b im) (id_ecdh0 im) (id_dh0 im) /\
  forall sta ar, dake_handle_identity C (ev_dake_host e1) (ev_dake e1) (ev_ring e1) DakeInitial im
                   (de_account da) (de_address da) = (sta, Ok (ReplyAuthR ar)) ->
  good_keys C (ar_x ar) (ar_a ar) (ar_ecdh0 ar) (ar_dh0 ar) /\ good_ring C (ar_sigma ar) /\ nonzero_ring (ar_sigma ar) /\
  forall st mat ai, dake_handle_auth_r C (ev_dake_host e2) (ev_ring e2) (sr_ecdh (ev_send e2)) (sr_dh (ev_send e2)) (ev_now e2)
                      stb ar (de_account db) (de_address db) = (st, Ok (mat, ai)) ->
  good_ring C (ai_sigma ai) /\ nonzero_ring (ai_sigma ai).

(* OTRv4: both hosts supply a working client profile and its identity key, both applications use the same
   account names, and the run is plain *)
Definition honest4 (C : Crypto) (da db : details) (e0 e1 e2 : env) : Prop :=
  (exists alice bob, working_host C (ev_dake_host e1) alice /\ working_host C (ev_dake_host e0) bob) /\
  ev_dake_host e2 = ev_dake_host e0 /\ ring_rnd_ok C (ev_ring e1) /\ ring_rnd_ok C (ev_ring e2) /\
  de_address da = de_account db /\ de_address db = de_account da /\ plain_run4 C da db e0 e1 e2.

(* points and scalars fit their encoding *)
Definition encodable (C : Crypto) : Prop :=
  (c_ed_p C mod 4 = 3)%Z /\ (c_ed_p C <= 2 ^ 448)%Z /\ (c_ed_q C <= 2 ^ 456)%Z.

(* As start_net3, in OTRv4.  Moreover B has not answered a query message before (see C56). *)
Definition start_net4 (C : Crypto) (da db : details) (sa sb : session) (x : exchange C sa sb) : Prop :=
  (exists ha, history C da ha sa) /\ (exists hb, history C db hb sb) /\ legal_details da /\ legal_details db /\
  resting sa (de_tag db) /\ resting sb (de_tag da) /\ preferred da V4 /\ allowed db V4 /\
  in_dake (entry 0 (se_instances sb)) = DakeInitial /\
  groups_ok4 C /\ encodable C /\ honest4 C da db (x_e0 x) (x_e1 x) (x_e2 x).

(** ** The conversation *)

(* Both sessions, and what is under way in each direction, oldest first: the payloads of one message of
   the user, and the text that the user entered. *)
Record link : Type := mkLink {
  li_a : session; li_b : session;
  li_ab : list (list bytes * bytes); li_ba : list (list bytes * bytes) }.

(* What happened; [a] says that it is A's message (or A's call). *)
Inductive happening : Type :=
| Sends (a : bool) (text : bytes)
| Loses (a : bool)
| Arrives (a : bool) (text : bytes) (answers : list (res user_message)) (replies : list bytes)
| Elsewhere (a : bool).

(* Either user sends a text to the other's client; the network loses or delivers the oldest message of a
   direction.  At any time a session may get any other call that does not concern this client: messages
   of other clients, anything sent to them, messages that are refused without effect. *)
Inductive net_step (C : Crypto) (ta tb : N) : link -> happening -> link -> Prop :=
| n_send_a l e text s ps :
    send C e (li_a l) tb text = (s, [], Ok ps) -> env_ok e -> transportable ps ->
    net_step C ta tb l (Sends true text) (mkLink s (li_b l) (li_ab l ++ [(ps, text)]) (li_ba l))
| n_send_b l e text s ps :
    send C e (li_b l) ta text = (s, [], Ok ps) -> env_ok e -> transportable ps ->
    net_step C ta tb l (Sends false text) (mkLink (li_a l) s (li_ab l) (li_ba l ++ [(ps, text)]))
| n_lose_a l x r :
    li_ab l = x :: r -> net_step C ta tb l (Loses true) (mkLink (li_a l) (li_b l) r (li_ba l))
| n_lose_b l x r :
    li_ba l = x :: r -> net_step C ta tb l (Loses false) (mkLink (li_a l) (li_b l) (li_ab l) r)
| n_arrive_a l e ps text r s out rs :
    li_ab l = (ps, text) :: r -> receive_all C e (li_b l) ps = (s, out, rs) -> ~ In Panic rs ->
    net_step C ta tb l (Arrives true text rs out) (mkLink (li_a l) s r (li_ba l))
| n_arrive_b l e ps text r s out rs :
    li_ba l = (ps, text) :: r -> receive_all C e (li_a l) ps = (s, out, rs) -> ~ In Panic rs ->
    net_step C ta tb l (Arrives false text rs out) (mkLink s (li_b l) (li_ab l) r)
| n_other_a l es o s out r :
    call C es (li_a l) o = (s, out, r) -> r <> Panic ->
    get_inst tb (se_instances s) = get_inst tb (se_instances (li_a l)) ->
    net_step C ta tb l (Elsewhere true) (mkLink s (li_b l) (li_ab l) (li_ba l))
| n_other_b l es o s out r :
    call C es (li_b l) o = (s, out, r) -> r <> Panic ->
    get_inst ta (se_instances s) = get_inst ta (se_instances (li_b l)) ->
    net_step C ta tb l (Elsewhere false) (mkLink (li_a l) s (li_ab l) (li_ba l)).

Inductive net_run (C : Crypto) (ta tb : N) (l0 : link) : list happening -> link -> Prop :=
| n_nil : net_run C ta tb l0 [] l0
| n_step hs l h l' : net_run C ta tb l0 hs l -> net_step C ta tb l h l' -> net_run C ta tb l0 (hs ++ [h]) l'.

(* The message arrived: the user of client [peer] is shown exactly the text (without NUL bytes), in one
   piece, and nothing is sent back. *)
Definition shown (peer : N) (text : bytes) (rs : list (res user_message)) (out : list bytes) : Prop :=
  exists n, rs = answered n (Ok (UMConfidential peer (without_nul text) [])) /\ out = [].
(* the user is told that a message was unreadable, and so is the sender *)
Definition refused (peer : N) (rs : list (res user_message)) (out : list bytes) : Prop :=
  exists n, rs = answered n (Err (UnreadableMessage peer)) /\ out = [UNREADABLE_REPLY].

(* The users take turns: a message of each, which arrives before the other user answers.  [a] says that it
   is A's turn. *)
Inductive alternating : bool -> list happening -> Prop :=
| al_nil a : alternating a []
| al_turn a hs text rs out : alternating a hs -> alternating (negb a) (hs ++ [Sends a text; Arrives a text rs out])
| al_other a hs b : alternating a hs -> alternating a (hs ++ [Elsewhere b]).

(* One user speaks at a time, [a] says whether it is A.  Each message is lost or arrives before the next is
   sent.  The other user starts to speak only right after being shown a message. *)
Inductive speaking (ta tb : N) : bool -> list happening -> Prop :=
| sp_start a : speaking ta tb a []
| sp_arrived (a : bool) hs text rs out :
    speaking ta tb a hs -> speaking ta tb a (hs ++ [Sends a text; Arrives a text rs out])
| sp_lost a hs text :
    speaking ta tb a hs -> speaking ta tb a (hs ++ [Sends a text; Loses a])
| sp_change (a : bool) hs text rs out :
    speaking ta tb a (hs ++ [Arrives a text rs out]) -> shown (if a then ta else tb) text rs out ->
    speaking ta tb (negb a) (hs ++ [Arrives a text rs out])
| sp_other a hs b : speaking ta tb a hs -> speaking ta tb a (hs ++ [Elsewhere b]).

(* The payloads carry an OTRv4 data message with a fresh Diffie-Hellman key that happens to be the one that
   session s already has from client t. *)
Definition repeats_key (C : Crypto) (s : session) (t : N) (ps : list bytes) : Prop :=
  exists d e m k our their dr smp,
    sent_as C d e (de_tag (se_details s)) V4 ps (MData4 m) /\ d4_dh m = Some k /\
    state_of s t = PEnc4 our their dr smp /\ k = mx_public_dh (dr_shared dr).
