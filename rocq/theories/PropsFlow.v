(** * PropsFlow: property theorems C80 (the part that holds) and C100-C102: what is sent arrives, once.

    A client [holding s m i acts] has sent [m] (a SUBSCRIBE or REGISTER), was given the id [i] for it, and has neither left
    nor asked to end it; [accepts a1 s x a2] says that [s] receives and accepts [x] during [a2], after [a1]. *)
From Coq Require Import String Ascii List ZArith Bool Lia.
From Verif Require Import PyBase Messages IdGen Joiner Session Broker Dealer SpecDealer Network SpecNetwork NetworkInv NetworkFlow NetworkDelivery NetworkOnce.
From Verif Require Import PropsNetwork.
Import ListNotations.
Local Open Scope string_scope.
Local Open Scope Z_scope.
Local Open Scope list_scope.

(** C80: asking to end something one holds is answered. *)
Theorem C80_unsubscribe_partial : forall before s q i u after, let acts := before ++ ASend s (Unsubscribe u) :: after in
  routings acts <= 2 ^ 53 -> no_reuse PubSub acts ->
  holding s (Subscribe q) i before -> pyint_Z (us_subscription u) = i -> ~ In (ALeave s) after -> idle s (fst (nrun acts)) ->
  accepts (before ++ [ASend s (Unsubscribe u)]) s (Unsubscribed (mkUnsubscribed (us_request u))) after.
Proof.
  intros before s q i u after acts L R Hh Hu Hl Hi.
  refine (end_answered everyone before s (Subscribe q) i (Unsubscribe u) after Logic.I Logic.I _ Hh _ Hl Hi).
  - apply allowed_everyone; [exact L|exact R|discriminate].
  - cbn [ends]. apply Z.eqb_eq. exact Hu.
Qed.
Print Assumptions C80_unsubscribe_partial.
Theorem C80_unregister_partial : forall before s q i u after, let acts := before ++ ASend s (Unregister u) :: after in
  routings acts <= 2 ^ 53 -> no_reuse Rpc acts -> fresh_sessions acts -> no_progress acts ->
  holding s (Register q) i before -> pyint_Z (ur_registration u) = i -> ~ In (ALeave s) after -> idle s (fst (nrun acts)) ->
  accepts (before ++ [ASend s (Unregister u)]) s (Unregistered (mkUnregistered (ur_request u))) after.
Proof.
  intros before s q i u after acts L R F P Hh Hu Hl Hi.
  refine (end_answered everyone before s (Register q) i (Unregister u) after Logic.I Logic.I _ Hh _ Hl Hi).
  - apply allowed_everyone; [exact L|exact R|auto].
  - cbn [ends]. apply Z.eqb_eq. exact Hu.
Qed.
Print Assumptions C80_unregister_partial.

Ltac in_acts H := repeat (destruct H as [H|H]; [try discriminate; try (injection H; intros; subst; reflexivity)|]); destruct H.
Ltac in_sent H := destruct H as [H|H]; in_acts H.
Definition x_held : list action := [x_join 10; x_join 20; x_sub 10 1 "a"; x_pub 20 1 "a" []; ARoute 10; ADeliver 10].
Example C80_case : let u := mkUnsubscribe (PyInt 4) (PyBool true) in let after := [ARoute 20; ARoute 10; ADeliver 10; ADeliver 10] in
  holding 10 (Subscribe (mkSubscribe (PyInt 1) "a" [])) 1 x_held /\ pyint_Z (us_subscription u) = 1 /\
  no_reuse PubSub (x_held ++ ASend 10 (Unsubscribe u) :: after) /\ idle 10 (fst (nrun (x_held ++ ASend 10 (Unsubscribe u) :: after))).
Proof.
  cbv zeta. split.
  { exists [x_join 10; x_join 20], [x_pub 20 1 "a" []; ARoute 10; ADeliver 10], (Subscribed (mkSubscribed (PyInt 1) (PyInt 1))). split; [reflexivity|].
    split; [reflexivity|]. split; [split; [intros H; in_acts H|intros v H; in_acts H]|]. split; [|reflexivity].
    exists [x_pub 20 1 "a" []; ARoute 10], []. eexists. split; [reflexivity|]. vm_compute. reflexivity. }
  split; [reflexivity|]. split; [apply reused_ok; reflexivity|]. eexists. vm_compute. reflexivity.
Qed.

(** C100: a publication reaches everyone who holds a subscription to its topic until it is processed, and its publisher gets
    the acknowledgement it asked for, with the same publication id. *)
Theorem C100_event_arrives : forall before s q i s' p after, let acts := before ++ ASend s' (Publish p) :: after in
  routings acts <= 2 ^ 53 -> no_reuse PubSub acts ->
  holding s (Subscribe q) i before -> pb_topic p = su_topic q -> connected s' (fst (nrun before)) = true ->
  ~ In (ALeave s') after -> keeps_on s i (Subscribe q) after -> idle s' (fst (nrun acts)) -> idle s (fst (nrun acts)) ->
  exists pid,
    accepts (before ++ [ASend s' (Publish p)]) s (Event (mkEvent (PyInt i) (PyInt pid) (pb_args p) (pb_kwargs p) [])) after /\
    (wants "acknowledge" (pb_options p) = true ->
     accepts (before ++ [ASend s' (Publish p)]) s' (Published (mkPublished (pb_request p) (PyInt pid))) after).
Proof.
  intros before s q i s' p after acts L R Hh Ht Hc Hl Hk Hi' Hi.
  destruct (event_arrives everyone before s q i s' p after Logic.I) as (pid & A & B); auto; [apply allowed_everyone; [exact L|exact R|discriminate]|].
  exists pid. split; [exact A|]. intros W. exact (B W Logic.I).
Qed.
Print Assumptions C100_event_arrives.

(** Session 20 publishes on a topic that 10 and itself subscribed to; 10 asks for something else meanwhile. *)
Definition x_both : list action := x_held ++ [ARoute 20; x_sub 20 1 "a"; ARoute 20; ADeliver 20; ADeliver 10].
Definition x_pub2 : publish := mkPublish (PyInt 2) "a" (Some [VStr "x"]) None ACK.
Definition x_after : list action := [x_sub 10 2 "b"; ARoute 10; ARoute 20; ADeliver 10; ADeliver 20; ADeliver 20; ADeliver 10].
Example C100_case : let acts := x_both ++ ASend 20 (Publish x_pub2) :: x_after in
  holding 10 (Subscribe (mkSubscribe (PyInt 1) "a" [])) 1 x_both /\ holding 20 (Subscribe (mkSubscribe (PyInt 1) "a" [])) 1 x_both /\
  no_reuse PubSub acts /\ keeps_on 10 1 (Subscribe (mkSubscribe (PyInt 1) "a" [])) x_after /\ connected 20 (fst (nrun x_both)) = true /\
  idle 10 (fst (nrun acts)) /\ idle 20 (fst (nrun acts)) /\ wants "acknowledge" (pb_options x_pub2) = true.
Proof.
  cbv zeta. split.
  { exists [x_join 10; x_join 20], (x_pub 20 1 "a" [] :: skipn 4 x_both), (Subscribed (mkSubscribed (PyInt 1) (PyInt 1))). split; [reflexivity|].
    split; [reflexivity|]. split; [split; [intros H; in_acts H|intros v H; in_acts H]|]. split; [|reflexivity].
    exists [x_pub 20 1 "a" []; ARoute 10], (skipn 6 x_both). eexists. split; [reflexivity|]. vm_compute. reflexivity. }
  split.
  { exists (x_held ++ [ARoute 20]), [ARoute 20; ADeliver 20; ADeliver 10], (Subscribed (mkSubscribed (PyInt 1) (PyInt 1))). split; [reflexivity|].
    split; [reflexivity|]. split; [split; [intros H; in_acts H|intros v H; in_acts H]|]. split; [|reflexivity].
    exists [ARoute 20], [ADeliver 10]. eexists. split; [reflexivity|]. vm_compute. reflexivity. }
  split; [apply reused_ok; reflexivity|]. split; [split; [intros H; in_acts H|intros v H; in_acts H]|]. split; [reflexivity|].
  split; [eexists; vm_compute; reflexivity|]. split; [eexists; vm_compute; reflexivity|reflexivity].
Qed.

(** C101: no event arrives twice, whatever the clients do. *)
Theorem C101_events_once : forall acts s, routings acts <= 2 ^ 53 ->
  NoDup (publications (inbox s (snd (nrun acts)))).
Proof. exact events_once. Qed.
Print Assumptions C101_events_once.
(** Nor does an invocation, when no call is made in several parts (which share one invocation). *)
Theorem C101_invocations_once : forall acts s, routings acts <= 2 ^ 53 ->
  (forall s c, has_sent acts s (Call c) -> wants "progress" (ca_options c) = false) ->
  NoDup (invocation_ids (inbox s (snd (nrun acts)))).
Proof. exact invocations_once. Qed.
Print Assumptions C101_invocations_once.
Example C101_case : publications (inbox 10 (snd (nrun x_acts))) = [6; 3; 2] /\ invocation_ids (inbox 10 (snd (nrun x_rpc))) = [3; 2].
Proof. vm_compute. auto. Qed.
(** Each part of a call in parts is an INVOCATION with the same id. *)
Example C101_parts : exists acts s, routings acts <= 2 ^ 53 /\ ~ NoDup (invocation_ids (inbox s (snd (nrun acts)))).
Proof.
  exists [x_join 10; x_join 20; x_reg 10 1 "p"; ARoute 10; ADeliver 10; x_call 20 1 "p" [(VStr "progress", VBool true)];
    x_call 20 1 "p" [(VStr "progress", VBool true)]; ARoute 20; ARoute 20; ADeliver 10; ADeliver 10], 10. split; [vm_compute; discriminate|].
  vm_compute. intros N. inversion N as [|? ? H _]. apply H. left. reflexivity.
Qed.

(** C102: a call reaches whoever holds a registration of its procedure until it is processed: an INVOCATION with the call's
    arguments and the registration's id.  If the callee answers it later, once, and nobody else does (C63), the answer
    reaches the caller, with the payload of the YIELD or ERROR and the request id of the call. *)
Theorem C102_call_answered : forall before s q i s' c after, let acts := before ++ ASend s' (Call c) :: after in
  routings acts <= 2 ^ 53 -> no_reuse Rpc acts -> fresh_sessions acts -> no_progress acts ->
  holding s (Register q) i before -> ca_procedure c = rg_procedure q -> connected s' (fst (nrun before)) = true ->
  ~ In (ALeave s') after -> keeps_on s i (Register q) after -> idle s' (fst (nrun acts)) -> idle s (fst (nrun acts)) ->
  exists iv a1 a2, let X := before ++ ASend s' (Call c) :: a1 in
    after = a1 ++ ADeliver s :: a2 /\
    snd (nstep (fst (nrun X)) (ADeliver s)) = Delivered (Invocation iv) (Ok (Invocation iv)) /\
    iv_registration iv = PyInt i /\ iv_args iv = ca_args c /\ iv_kwargs iv = ca_kwargs c /\
    bp_payload (iv_bin iv) = bp_payload (ca_bin c) /\ bp_serializer (iv_bin iv) = bp_serializer (ca_bin c) /\
    forall rest c1 u c2, let all := acts ++ rest in
      routings all <= 2 ^ 53 -> no_reuse Rpc all -> fresh_sessions all -> no_progress all ->
      a2 ++ rest = c1 ++ ASend s u :: c2 -> replies (pyint_Z (iv_request iv)) u = true ->
      no_reply s (pyint_Z (iv_request iv)) (X ++ ADeliver s :: c1 ++ c2) ->
      ~ In (ALeave s) rest -> ~ In (ALeave s') rest -> idle s (fst (nrun all)) -> idle s' (fst (nrun all)) ->
      accepts (X ++ ADeliver s :: c1 ++ [ASend s u]) s' (reply_to c u) c2.
Proof.
  intros before s q i s' c after acts L R F P Hh Ht Hc Hl Hk Hi' Hi.
  destruct (call_round_trip everyone before s q i s' c after Logic.I Logic.I) as (j & a1 & a2 & E & D & K); auto; [apply allowed_everyone; [exact L|exact R|auto]|].
  eexists _, a1, a2. cbn zeta. split; [exact E|]. split; [exact D|]. repeat (split; [reflexivity|]).
  intros rest c1 u c2 L' R' F' P' Ea Hu Hn H1 H2 H3 H4. apply (K rest c1 u c2); auto. apply allowed_everyone; [exact L'|exact R'|auto].
Qed.
Print Assumptions C102_call_answered.

(** Session 10 holds "p", 20 calls it; 10 unregisters after the invocation arrived, then answers. *)
Definition x_reg_held : list action := [x_join 10; x_join 20; x_reg 10 1 "p"; ARoute 10; ADeliver 10].
Definition x_call_p : call := mkCall (PyInt 5) "p" (Some [VInt 7]) None [] no_bin.
Definition x_rest : list action := [x_unreg 10 1 1; ARoute 10; ASend 10 (Yield (mkYield (PyInt 2) (Some [VInt 8]) None [] no_bin)); ADeliver 10; ARoute 10; ADeliver 20].
Example C102_case : let acts := x_reg_held ++ ASend 20 (Call x_call_p) :: [ARoute 20; ADeliver 10] in
  holding 10 (Register (mkRegister (PyInt 1) "p" [])) 1 x_reg_held /\ connected 20 (fst (nrun x_reg_held)) = true /\
  keeps_on 10 1 (Register (mkRegister (PyInt 1) "p" [])) [ARoute 20; ADeliver 10] /\ idle 10 (fst (nrun acts)) /\ idle 20 (fst (nrun acts)) /\
  no_reuse Rpc (acts ++ x_rest) /\ fresh_sessions (acts ++ x_rest) /\ no_progress (acts ++ x_rest) /\
  idle 10 (fst (nrun (acts ++ x_rest))) /\ idle 20 (fst (nrun (acts ++ x_rest))) /\
  shown (nrun (acts ++ x_rest)) =
    [(10, Registered (mkRegistered (PyInt 1) (PyInt 1)), true);
     (10, Invocation (mkInvocation (PyInt 2) (PyInt 1) (Some [VInt 7]) None [] no_bin), true);
     (10, Unregistered (mkUnregistered (PyInt 1)), true);
     (20, Result (mkResult (PyInt 5) (Some [VInt 8]) None [] no_bin), true)].
Proof.
  cbv zeta. split.
  { exists [x_join 10; x_join 20], [ARoute 10; ADeliver 10], (Registered (mkRegistered (PyInt 1) (PyInt 1))). split; [reflexivity|].
    split; [reflexivity|]. split; [split; [intros H; in_acts H|intros v H; in_acts H]|]. split; [|reflexivity].
    exists [ARoute 10], []. eexists. split; [reflexivity|]. vm_compute. reflexivity. }
  split; [reflexivity|]. split; [split; [intros H; in_acts H|intros v H; in_acts H]|].
  split; [eexists; vm_compute; reflexivity|]. split; [eexists; vm_compute; reflexivity|].
  split; [apply reused_ok; reflexivity|]. split; [repeat constructor; cbn; intuition discriminate|].
  split; [left; intros s m H; in_sent H|]. split; [eexists; vm_compute; reflexivity|]. split; [eexists; vm_compute; reflexivity|].
  vm_compute. reflexivity.
Qed.
