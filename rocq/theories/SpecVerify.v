(* Vocabulary for the verification of a peer over a network: X asks Y's user for a shared secret with the Socialist
   Millionaire Protocol, in a private conversation that the two sessions have. *)
From Verif Require Import Base Types Crypto Encoding ClientProfile Messages Fragment KeyManager DataV3 Ratchet DataV4
  AKE DAKE SMP SMP4 Protocol Session SpecWire SpecSMP SpecSMP4 SpecSession SpecNet.
Local Open Scope N_scope.

(* X, whose client is tx, starts with a secret and a question; every message is delivered to the other at once. *)
Record verification (C : Crypto) (tx ty : N) (sx sy : session) (secret question : bytes) : Type := mkVerification {
  v_e1 : env; v_e2 : env; v_e3 : env; v_e4 : env; v_e5 : env;   (* used by X, Y, X, Y, X *)
  v_sx1 : session; v_sx2 : session; v_sx3 : session; v_sy1 : session; v_sy2 : session;
  v_p1 : list bytes; v_p2 : list bytes; v_p3 : list bytes; v_p4 : list bytes; v_p5 : list bytes;
  v_r1 : res unit;
  v_r2 : list (res user_message); v_r3 : list (res user_message); v_r4 : list (res user_message); v_r5 : list (res user_message);
  v_step1 : start_smp C v_e1 sx ty secret question = (v_sx1, v_p1, v_r1);
  v_step2 : receive_all C v_e2 sy v_p1 = (v_sy1, v_p2, v_r2);
  v_step3 : receive_all C v_e3 v_sx1 v_p2 = (v_sx2, v_p3, v_r3);
  v_step4 : receive_all C v_e4 v_sy1 v_p3 = (v_sy2, v_p4, v_r4);
  v_step5 : receive_all C v_e5 v_sx2 v_p4 = (v_sx3, v_p5, v_r5);
  (* nobody crashes, and the transport can carry everything *)
  v_alive : v_r1 <> Panic /\ ~ In Panic (v_r2 ++ v_r3 ++ v_r4 ++ v_r5);
  v_carried : Forall transportable [v_p1; v_p2; v_p3; v_p4];
  v_envs : Forall env_ok [v_e1; v_e2; v_e3; v_e4; v_e5] }.
Arguments v_e1 {C tx ty sx sy secret question}. Arguments v_e2 {C tx ty sx sy secret question}.
Arguments v_e3 {C tx ty sx sy secret question}. Arguments v_e4 {C tx ty sx sy secret question}.
Arguments v_e5 {C tx ty sx sy secret question}. Arguments v_sx1 {C tx ty sx sy secret question}.
Arguments v_sx2 {C tx ty sx sy secret question}. Arguments v_sx3 {C tx ty sx sy secret question}.
Arguments v_sy1 {C tx ty sx sy secret question}. Arguments v_sy2 {C tx ty sx sy secret question}.
Arguments v_p1 {C tx ty sx sy secret question}. Arguments v_p2 {C tx ty sx sy secret question}.
Arguments v_p3 {C tx ty sx sy secret question}. Arguments v_p4 {C tx ty sx sy secret question}.
Arguments v_p5 {C tx ty sx sy secret question}. Arguments v_r1 {C tx ty sx sy secret question}.
Arguments v_r2 {C tx ty sx sy secret question}. Arguments v_r3 {C tx ty sx sy secret question}.
Arguments v_r4 {C tx ty sx sy secret question}. Arguments v_r5 {C tx ty sx sy secret question}.
Arguments v_step1 {C tx ty sx sy secret question}. Arguments v_step2 {C tx ty sx sy secret question}.
Arguments v_step3 {C tx ty sx sy secret question}. Arguments v_step4 {C tx ty sx sy secret question}.
Arguments v_step5 {C tx ty sx sy secret question}. Arguments v_alive {C tx ty sx sy secret question}.
Arguments v_carried {C tx ty sx sy secret question}. Arguments v_envs {C tx ty sx sy secret question}.

Section WithCrypto.
Context {C : Crypto} {tx ty : N} {sx sy : session} {secret question : bytes}.

(* Both users get the verdict on the other's client, Y's user with the third message and X's user with the fourth, and
   nothing else.  No message is sent after the fourth. *)
Definition told (v : verification C tx ty sx sy secret question) (verdict : N -> user_message) : Prop :=
  v_r1 v = Ok tt /\ v_r2 v = answered (length (v_p1 v)) (Ok UMNone) /\ v_r3 v = answered (length (v_p2 v)) (Ok UMNone) /\
  v_r4 v = answered (length (v_p3 v)) (Ok (verdict tx)) /\ v_r5 v = answered (length (v_p4 v)) (Ok (verdict ty)) /\ v_p5 v = [].
(* what Y's user answers *)
Definition answer (v : verification C tx ty sx sy secret question) : option bytes := ev_answer (v_e2 v) question.

(** ** OTRv3 *)

(* The hosts supply the DSA keys kx and ky, and Y's user is the same in both steps. *)
Definition keys3 (kx ky : option dsa_keypair) (v : verification C tx ty sx sy secret question) : Prop :=
  Forall (fun e => ev_dsa e = kx /\ ev_answer e = ev_answer (v_e1 v)) [v_e1 v; v_e3 v; v_e5 v] /\
  Forall (fun e => ev_dsa e = ky /\ ev_answer e = ev_answer (v_e2 v)) [v_e2 v; v_e4 v].
(* No number in the run is one that the other side must refuse. *)
Definition legal3 (v : verification C tx ty sx sy secret question) : Prop :=
  forall o1 o2 k1 x o3 o4 k2 y, state_of sx ty = PEnc3 o1 o2 k1 x -> state_of sy tx = PEnc3 o3 o4 k2 y ->
  let hx := ev_smp_host (v_e1 v) in let hy := ev_smp_host (v_e2 v) in
  forall x1 t1, smp_initiate C hx (ev_smp (v_e1 v)) x secret question = (x1, Ok t1) -> legal_1 C t1 /\
  forall y1 t2, smp_handle C hy (ev_smp (v_e2 v)) y t1 = (y1, Ok (Some t2)) -> legal_2 C t2 /\
  forall x2 t3, smp_handle C hx (ev_smp (v_e3 v)) x1 t2 = (x2, Ok (Some t3)) -> legal_3 C t3 /\
  forall y2 t4, smp_handle C hy (ev_smp (v_e4 v)) y1 t3 = (y2, Ok (Some t4)) -> legal_4 C t4.
(* the number that stands for a secret in this session, see C35 *)
Definition number3 (v : verification C tx ty sx sy secret question) (secret : bytes) (n : N) : Prop :=
  exists ssid, ses_ssid sx ty = Ok ssid /\ secret_number C (ev_smp_host (v_e1 v)) (ev_smp_host (v_e2 v)) ssid secret = Some n.
(* A question without NULs is answered with a secret, and neither hosts nor numbers stand in the way. *)
Definition ready3 (kx ky : option dsa_keypair) (v : verification C tx ty sx sy secret question) : Prop :=
  ~ In x00 question /\ answer v <> None /\ keys3 kx ky v /\ legal3 v.
(* the answer stands for the same number, or for another one *)
Definition same3 (v : verification C tx ty sx sy secret question) : Prop :=
  exists reply n m, answer v = Some reply /\ number3 v secret n /\ number3 v reply m /\ n mod dh_q C = m mod dh_q C.
Definition other3 (v : verification C tx ty sx sy secret question) : Prop :=
  exists reply n m, answer v = Some reply /\ number3 v secret n /\ number3 v reply m /\ n mod dh_q C <> m mod dh_q C.

(** ** OTRv4 *)

Definition number4 (secret : bytes) (n : Z) : Prop :=
  exists our their dr c, state_of sx ty = PEnc4 our their dr c /\ smp4_secret C (s4_us c) (s4_them c) (s4_ssid c) secret = Ok n.
(* Y's user answers with a secret.  Random choices are not degenerate, see C37, and no fresh key repeats the last one, see
   C55. *)
Definition ready4 (v : verification C tx ty sx sy secret question) : Prop :=
  (exists reply x y, answer v = Some reply /\ number4 secret x /\ number4 reply y /\
     usual_choices C (ev_smp4 (v_e1 v)) (ev_smp4 (v_e2 v)) (ev_smp4 (v_e3 v)) (ev_smp4 (v_e4 v)) x y) /\
  ~ repeats_key C sy tx (v_p1 v) /\ ~ repeats_key C (v_sx1 v) ty (v_p2 v) /\
  ~ repeats_key C (v_sy1 v) tx (v_p3 v) /\ ~ repeats_key C (v_sx2 v) ty (v_p4 v).
Definition same4 (v : verification C tx ty sx sy secret question) : Prop :=
  exists reply n m, answer v = Some reply /\ number4 secret n /\ number4 reply m /\ (n mod c_ed_q C = m mod c_ed_q C)%Z.
Definition other4 (v : verification C tx ty sx sy secret question) : Prop :=
  exists reply n m, answer v = Some reply /\ number4 secret n /\ number4 reply m /\ (n mod c_ed_q C <> m mod c_ed_q C)%Z.
End WithCrypto.

(** ** Conversations with verifications *)

(* The users take turns, from the end of the exchange x on: a message of each, which arrives before the other user
   answers.  A user whose turn it is may verify the other instead, and afterwards it is still that user's turn.  [a] says
   that it is A's turn. *)
Inductive course3 (C : Crypto) (ta tb : N) {sa sb : session} (x : exchange C sa sb) : bool -> link -> Prop :=
| co3_start a : course3 C ta tb x a (mkLink (x_sa2 x) (x_sb3 x) [] [])
| co3_turn a l text l1 rs out l2 :
    course3 C ta tb x a l -> net_step C ta tb l (Sends a text) l1 -> net_step C ta tb l1 (Arrives a text rs out) l2 ->
    course3 C ta tb x (negb a) l2
| co3_other a l b l1 : course3 C ta tb x a l -> net_step C ta tb l (Elsewhere b) l1 -> course3 C ta tb x a l1
| co3_verify_a l secret question (v : verification C ta tb (li_a l) (li_b l) secret question) :
    course3 C ta tb x true l -> ready3 (ev_dsa (x_e3 x)) (ev_dsa (x_e2 x)) v ->
    course3 C ta tb x true (mkLink (v_sx3 v) (v_sy2 v) (li_ab l) (li_ba l))
| co3_verify_b l secret question (v : verification C tb ta (li_b l) (li_a l) secret question) :
    course3 C ta tb x false l -> ready3 (ev_dsa (x_e2 x)) (ev_dsa (x_e3 x)) v ->
    course3 C ta tb x false (mkLink (v_sy2 v) (v_sx3 v) (li_ab l) (li_ba l)).

(* One user speaks at a time, [a] says whether it is A.  Each message is lost or arrives before the next is sent.  The
   other user may speak right after being shown a message, or after a verification. *)
Inductive course4 (C : Crypto) (ta tb : N) {sa sb : session} (x : exchange C sa sb) : bool -> link -> Prop :=
| co4_start a : course4 C ta tb x a (mkLink (x_sa2 x) (x_sb3 x) [] [])
| co4_arrived (a : bool) l text l1 rs out l2 :
    course4 C ta tb x a l -> net_step C ta tb l (Sends a text) l1 -> net_step C ta tb l1 (Arrives a text rs out) l2 ->
    course4 C ta tb x a l2
| co4_change (a : bool) l text l1 rs out l2 :
    course4 C ta tb x a l -> net_step C ta tb l (Sends a text) l1 -> net_step C ta tb l1 (Arrives a text rs out) l2 ->
    shown (if a then ta else tb) text rs out -> course4 C ta tb x (negb a) l2
| co4_lost a l text l1 l2 :
    course4 C ta tb x a l -> net_step C ta tb l (Sends a text) l1 -> net_step C ta tb l1 (Loses a) l2 -> course4 C ta tb x a l2
| co4_other a l b l1 : course4 C ta tb x a l -> net_step C ta tb l (Elsewhere b) l1 -> course4 C ta tb x a l1
| co4_verify_a a l secret question (v : verification C ta tb (li_a l) (li_b l) secret question) :
    course4 C ta tb x true l -> ready4 v -> course4 C ta tb x a (mkLink (v_sx3 v) (v_sy2 v) (li_ab l) (li_ba l))
| co4_verify_b a l secret question (v : verification C tb ta (li_b l) (li_a l) secret question) :
    course4 C ta tb x false l -> ready4 v -> course4 C ta tb x a (mkLink (v_sy2 v) (v_sx3 v) (li_ab l) (li_ba l)).
