(** * PropsLocal: property theorem C113: what a client can rely on does not depend on how the other clients behave.

    C69, C77, C79, C80, C100, C102 and C110 ask of every client that it keeps to the rules (no request id used twice, ...).
    Here only the client concerned is asked to ([disciplined hf s acts], SpecNetwork.v); the others may reuse ids, join
    again under an id used before, answer calls progressively, and send what they like without using WAMPSession ([APut]). *)
From Coq Require Import String Ascii List ZArith Bool Lia.
From Verif Require Import PyBase Messages IdGen Joiner Session Broker Dealer SpecDealer Network SpecNetwork.
From Verif Require Import NetworkFacts NetworkInv NetworkLive NetworkFlow NetworkDelivery NetworkHold PropsNetwork PropsFlow SpecHold.
Import ListNotations.
Local Open Scope string_scope.
Local Open Scope Z_scope.
Local Open Scope list_scope.

Lemma allowed_one hf s acts : routings acts <= 2 ^ 53 -> disciplined hf s acts -> allowed (eq s) hf acts.
Proof. intros L D. split; [exact L|]. intros s0 <-. exact D. Qed.
Lemma allowed_two hf s s' acts : routings acts <= 2 ^ 53 -> disciplined hf s acts -> disciplined hf s' acts ->
  allowed (fun x => x = s \/ x = s') hf acts.
Proof. intros L D D'. split; [exact L|]. intros s0 [->| ->]; assumption. Qed.

(** Every message of half [hf] that reaches [s] is accepted. *)
Theorem C113_accepted : forall hf acts s m r,
  routings acts <= 2 ^ 53 -> disciplined hf s acts ->
  In (ADeliver s, Delivered m r) (snd (nrun acts)) -> message_half m = Some hf -> r = Ok m.
Proof. intros hf acts s m r L D. apply (deliveries_accepted (eq s)); [reflexivity|apply allowed_one; assumption]. Qed.
Print Assumptions C113_accepted.

(** Every request of [s] is answered. *)
Theorem C113_pubsub_answered : forall before s m after, let acts := before ++ ASend s m :: after in
  routings acts <= 2 ^ 53 -> disciplined PubSub s acts ->
  connected s (fst (nrun before)) = true -> ~ In (ALeave s) after -> idle s (fst (nrun acts)) ->
  match m with
  | Subscribe _ => True
  | Publish p => wants "acknowledge" (pb_options p) = true
  | _ => False
  end ->
  got_answer s m (snd (nrun acts)).
Proof.
  intros before s m after acts L D Hc Hl Hi Hm. pose proof (allowed_one _ _ _ L D) as A.
  destruct m; try contradiction.
  - destruct (requests_answered (eq s) PubSub before s (Publish m) after RPub (pyint_Z (pb_request m)) eq_refl A eq_refl eq_refl) as [H|[H _]]; auto; [|discriminate].
    cbn [up_req asks kind_eqb]. unfold acknowledged, sget_default. unfold wants in Hm. destruct (sget "acknowledge" (pb_options m)); [rewrite Hm; reflexivity|discriminate].
  - destruct (requests_answered (eq s) PubSub before s (Subscribe m) after RSub (pyint_Z (su_request m)) eq_refl A eq_refl eq_refl eq_refl) as [H|[H _]]; auto. discriminate.
Qed.
Print Assumptions C113_pubsub_answered.
Theorem C113_rpc_answered : forall before s m after, let acts := before ++ ASend s m :: after in
  routings acts <= 2 ^ 53 -> disciplined Rpc s acts ->
  connected s (fst (nrun before)) = true -> ~ In (ALeave s) after -> idle s (fst (nrun acts)) ->
  match m with
  | Register _ => got_answer s m (snd (nrun acts))
  | Call c => got_answer s m (snd (nrun acts)) \/ waiting s (pyint_Z (ca_request c)) (fst (nrun acts))
  | _ => True
  end.
Proof.
  intros before s m after acts L D Hc Hl Hi. pose proof (allowed_one _ _ _ L D) as A.
  destruct m; try exact Logic.I.
  - destruct (requests_answered (eq s) Rpc before s (Call m) after RCall (pyint_Z (ca_request m)) eq_refl A eq_refl eq_refl eq_refl) as [H|[_ H]]; auto.
  - destruct (requests_answered (eq s) Rpc before s (Register m) after RReg (pyint_Z (rg_request m)) eq_refl A eq_refl eq_refl eq_refl) as [H|[H _]]; auto. discriminate.
Qed.
Print Assumptions C113_rpc_answered.
Theorem C113_end_answered : forall before s q i u x after, let acts := before ++ ASend s u :: after in
  match q, u, x with
  | Subscribe _, Unsubscribe v, Unsubscribed y => pyint_Z (us_subscription v) = i /\ y = mkUnsubscribed (us_request v) /\ disciplined PubSub s acts
  | Register _, Unregister v, Unregistered y => pyint_Z (ur_registration v) = i /\ y = mkUnregistered (ur_request v) /\ disciplined Rpc s acts
  | _, _, _ => False
  end ->
  routings acts <= 2 ^ 53 -> holding s q i before -> ~ In (ALeave s) after -> idle s (fst (nrun acts)) ->
  accepts (before ++ [ASend s u]) s x after.
Proof.
  intros before s q i u x after acts D L Hh Hl Hi.
  destruct q, u, x; try contradiction; destruct D as (Hu & -> & D).
  - refine (end_answered (eq s) before s (Subscribe m) i (Unsubscribe m0) after eq_refl Logic.I (allowed_one _ _ _ L D) Hh _ Hl Hi).
    apply Z.eqb_eq. exact Hu.
  - refine (end_answered (eq s) before s (Register m) i (Unregister m0) after eq_refl Logic.I (allowed_one _ _ _ L D) Hh _ Hl Hi).
    apply Z.eqb_eq. exact Hu.
Qed.
Print Assumptions C113_end_answered.

(** Publications reach [s] from any publisher; the acknowledgement reaches a disciplined publisher. *)
Theorem C113_event_arrives : forall before s q i s' p after, let acts := before ++ ASend s' (Publish p) :: after in
  routings acts <= 2 ^ 53 -> disciplined PubSub s acts ->
  holding s (Subscribe q) i before -> pb_topic p = su_topic q -> connected s' (fst (nrun before)) = true ->
  ~ In (ALeave s') after -> keeps_on s i (Subscribe q) after -> idle s' (fst (nrun acts)) -> idle s (fst (nrun acts)) ->
  exists pid,
    accepts (before ++ [ASend s' (Publish p)]) s (Event (mkEvent (PyInt i) (PyInt pid) (pb_args p) (pb_kwargs p) [])) after /\
    (disciplined PubSub s' acts -> wants "acknowledge" (pb_options p) = true ->
     accepts (before ++ [ASend s' (Publish p)]) s' (Published (mkPublished (pb_request p) (PyInt pid))) after).
Proof.
  intros before s q i s' p after acts L D Hh Ht Hc Hl Hk Hi' Hi.
  destruct (event_arrives (fun x => disciplined PubSub x acts) before s q i s' p after D) as (pid & A & B); auto; [split; [exact L|auto]|].
  exists pid. split; [exact A|]. intros D' W. exact (B W D').
Qed.
Print Assumptions C113_event_arrives.

(** A call goes through when caller and callee keep to the rules (and nobody else answers it, C63). *)
Theorem C113_call_answered : forall before s q i s' c after, let acts := before ++ ASend s' (Call c) :: after in
  routings acts <= 2 ^ 53 -> disciplined Rpc s acts -> disciplined Rpc s' acts ->
  holding s (Register q) i before -> ca_procedure c = rg_procedure q -> connected s' (fst (nrun before)) = true ->
  ~ In (ALeave s') after -> keeps_on s i (Register q) after -> idle s' (fst (nrun acts)) -> idle s (fst (nrun acts)) ->
  exists iv a1 a2, let X := before ++ ASend s' (Call c) :: a1 in
    after = a1 ++ ADeliver s :: a2 /\
    snd (nstep (fst (nrun X)) (ADeliver s)) = Delivered (Invocation iv) (Ok (Invocation iv)) /\
    iv_registration iv = PyInt i /\ iv_args iv = ca_args c /\ iv_kwargs iv = ca_kwargs c /\
    bp_payload (iv_bin iv) = bp_payload (ca_bin c) /\ bp_serializer (iv_bin iv) = bp_serializer (ca_bin c) /\
    forall rest c1 u c2, let all := acts ++ rest in
      routings all <= 2 ^ 53 -> disciplined Rpc s all -> disciplined Rpc s' all ->
      a2 ++ rest = c1 ++ ASend s u :: c2 -> replies (pyint_Z (iv_request iv)) u = true ->
      no_reply s (pyint_Z (iv_request iv)) (X ++ ADeliver s :: c1 ++ c2) ->
      ~ In (ALeave s) rest -> ~ In (ALeave s') rest -> idle s (fst (nrun all)) -> idle s' (fst (nrun all)) ->
      accepts (X ++ ADeliver s :: c1 ++ [ASend s u]) s' (reply_to c u) c2.
Proof.
  intros before s q i s' c after acts L D D' Hh Ht Hc Hl Hk Hi' Hi.
  destruct (call_round_trip (fun x => x = s \/ x = s') before s q i s' c after) as (j & a1 & a2 & E & V & K); auto; [apply allowed_two; assumption|].
  eexists _, a1, a2. cbn zeta. split; [exact E|]. split; [exact V|]. repeat (split; [reflexivity|]).
  intros rest c1 u c2 L' D1 D2 Ea Hu Hn H1 H2 H3 H4. apply (K rest c1 u c2); auto. apply allowed_two; assumption.
Qed.
Print Assumptions C113_call_answered.

(** Events and invocations come only while [s] holds what they are about. *)
Theorem C113_while_held : forall hf acts s x i, routings acts <= 2 ^ 53 -> disciplined hf s acts ->
  next_is acts s x -> about hf x = Some i -> held hf acts s i.
Proof. intros hf acts s x i L D. apply (only_while_held (eq s)); [reflexivity|apply allowed_one; assumption]. Qed.
Print Assumptions C113_while_held.

(** Session 66 uses request id 1 for two subscriptions, two publications and two registrations, joins again, and answers
    with progressive results; 10 and 20 keep to the rules. *)
Fixpoint reused_by (hf : half) (s : Z) (acts : list action) : bool :=
  match acts with
  | [] => false
  | ASend s' m :: rest => (if s' =? s then reused_in hf s m rest else false) || reused_by hf s rest
  | APut s' _ :: rest => (s' =? s) || reused_by hf s rest
  | _ :: rest => reused_by hf s rest
  end.
Lemma reused_by_ok hf s acts : reused_by hf s acts = false -> no_reuse_by hf s acts.
Proof.
  intros H. split.
  { intros m I0. induction acts as [|a acts IH]; [destruct I0|]. cbn [reused_by] in H. destruct I0 as [->|I0]; [rewrite Z.eqb_refl in H; discriminate|].
    apply IH; [|exact I0]. destruct a; try exact H; apply orb_false_iff in H; apply H. }
  intros before m1 between m2 after k r -> Hk H1 H2. induction before as [|a b IH]; cbn [app reused_by] in H.
  - rewrite Z.eqb_refl in H. apply orb_false_iff in H. eapply reused_in_ok; [exact Hk|exact H1|exact H2|apply H].
  - destruct a; try (apply IH; exact H); apply orb_false_iff in H; apply IH, H.
Qed.
Definition PROGRESS : dict := [(VStr "progress", VBool true)].
Definition x_mixed : list action :=
  [x_join 10; x_join 20; x_join 66; x_sub 66 1 "a"; x_sub 66 1 "b"; x_sub 10 1 "a"; ARoute 66; ARoute 66; ARoute 10; ADeliver 66; ADeliver 66; ADeliver 10;
   x_pub 66 1 "a" ACK; x_pub 66 1 "a" ACK; ARoute 66; ARoute 66; ADeliver 66; ADeliver 66; ADeliver 10; ADeliver 10;
   x_pub 20 1 "a" ACK; ARoute 20; ADeliver 20; ADeliver 10; ADeliver 66].
Example C113_case_pubsub : disciplined PubSub 10 x_mixed /\ disciplined PubSub 20 x_mixed /\ ~ no_reuse PubSub x_mixed /\
  idle 10 (fst (nrun x_mixed)) /\ idle 20 (fst (nrun x_mixed)) /\ shown (nrun x_mixed) =
  [(66, Subscribed (mkSubscribed (PyInt 1) (PyInt 1)), true);
   (66, Subscribed (mkSubscribed (PyInt 1) (PyInt 2)), false);
   (10, Subscribed (mkSubscribed (PyInt 1) (PyInt 1)), true);
   (66, Published (mkPublished (PyInt 1) (PyInt 3)), true);
   (66, Event (mkEvent (PyInt 1) (PyInt 3) None None []), true);
   (10, Event (mkEvent (PyInt 1) (PyInt 3) None None []), true);
   (10, Event (mkEvent (PyInt 1) (PyInt 4) None None []), true);
   (20, Published (mkPublished (PyInt 1) (PyInt 5)), true);
   (10, Event (mkEvent (PyInt 1) (PyInt 5) None None []), true);
   (66, Published (mkPublished (PyInt 1) (PyInt 4)), false)].
Proof.
  split; [split; [apply reused_by_ok; reflexivity|discriminate]|]. split; [split; [apply reused_by_ok; reflexivity|discriminate]|]. split.
  { intros R. assert (H : In (ALeave 66) []); [|destruct H].
    apply (proj2 R (firstn 3 x_mixed) 66 (Subscribe (mkSubscribe (PyInt 1) "a" [])) [] (Subscribe (mkSubscribe (PyInt 1) "b" [])) (skipn 5 x_mixed) RSub 1); reflexivity. }
  split; [eexists; vm_compute; reflexivity|]. split; [eexists; vm_compute; reflexivity|]. vm_compute. reflexivity.
Qed.
(** 66 registers twice with one id, calls "p" and joins again before the answer comes, and answers 20's call progressively
    and then again. *)
Definition x_mixed_rpc : list action :=
  [x_join 10; x_join 20; x_join 66; x_reg 10 1 "p"; ARoute 10; ADeliver 10; x_reg 66 1 "q"; x_reg 66 1 "r"; ARoute 66; ARoute 66; ADeliver 66; ADeliver 66;
   x_call 66 1 "p" []; ARoute 66; ALeave 66; x_join 66; ADeliver 10; x_yield 10 4 []; ARoute 10; ADeliver 66;
   x_reg 66 1 "q"; ARoute 66; ADeliver 66; x_call 20 1 "q" []; ARoute 20; ADeliver 66; x_yield 66 6 PROGRESS; ARoute 66; ADeliver 20; x_err 66 6; ARoute 66;
   x_call 20 2 "p" []; ARoute 20; ADeliver 10; x_yield 10 7 []; ARoute 10; ADeliver 20].
Example C113_case_rpc : disciplined Rpc 10 x_mixed_rpc /\ disciplined Rpc 20 x_mixed_rpc /\ ~ no_reuse Rpc x_mixed_rpc /\ ~ fresh_sessions x_mixed_rpc /\
  idle 10 (fst (nrun x_mixed_rpc)) /\ idle 20 (fst (nrun x_mixed_rpc)) /\ shown (nrun x_mixed_rpc) =
  [(10, Registered (mkRegistered (PyInt 1) (PyInt 1)), true);
   (66, Registered (mkRegistered (PyInt 1) (PyInt 2)), true);
   (66, Registered (mkRegistered (PyInt 1) (PyInt 3)), false);
   (10, Invocation (mkInvocation (PyInt 4) (PyInt 1) None None [] no_bin), true);
   (66, Result (mkResult (PyInt 1) None None [] no_bin), false);
   (66, Registered (mkRegistered (PyInt 1) (PyInt 5)), true);
   (66, Invocation (mkInvocation (PyInt 6) (PyInt 5) None None [] no_bin), true);
   (20, Result (mkResult (PyInt 1) None None [] no_bin), true);
   (10, Invocation (mkInvocation (PyInt 7) (PyInt 1) None None [] no_bin), true);
   (20, Result (mkResult (PyInt 2) None None [] no_bin), true)].
Proof.
  split.
  { split; [apply reused_by_ok; reflexivity|]. intros _. split; [vm_compute; repeat constructor|]. left. intros m H. in_sent H. }
  split.
  { split; [apply reused_by_ok; reflexivity|]. intros _. split; [vm_compute; repeat constructor|]. left. intros m H. in_sent H. }
  split.
  { intros R. assert (H : In (ALeave 66) []); [|destruct H].
    apply (proj2 R (firstn 6 x_mixed_rpc) 66 (Register (mkRegister (PyInt 1) "q" [])) [] (Register (mkRegister (PyInt 1) "r" [])) (skipn 8 x_mixed_rpc) RReg 1); reflexivity. }
  split. { intros F. vm_compute in F. inversion F as [|? ? _ F1]; inversion F1 as [|? ? _ F2]; inversion F2 as [|? ? F3 _]. apply F3. left. reflexivity. }
  split; [eexists; vm_compute; reflexivity|]. split; [eexists; vm_compute; reflexivity|]. vm_compute. reflexivity.
Qed.

(** 66 does not use WAMPSession: it answers invocations it never received, sends messages that only routers send, ends what
    it does not hold, and uses one request id for everything. *)
Definition x_put m := APut 66 m.
Definition x_foreign : list action :=
  [x_join 10; x_join 20; x_join 66; x_reg 10 1 "p"; x_sub 10 2 "a"; ARoute 10; ARoute 10; ADeliver 10; ADeliver 10;
   x_put (Yield (mkYield (PyInt 2) None None PROGRESS no_bin)); x_put (Welcome (mkWelcome (PyInt 10) [] None None None [])); x_put (Unregister (mkUnregister (PyInt 1) (PyInt 1)));
   x_put (Unsubscribe (mkUnsubscribe (PyInt 1) (PyInt 1))); x_put (Publish (mkPublish (PyInt 1) "a" None None ACK)); x_put (Publish (mkPublish (PyInt 1) "a" None None ACK));
   x_put (Register (mkRegister (PyInt 1) "p" [])); x_put (Error (mkError (PyInt 68) (PyInt 7) "e" None None []));
   ARoute 66; ARoute 66; ARoute 66; ARoute 66; ARoute 66; ARoute 66; ARoute 66; ARoute 66; ADeliver 10; ADeliver 10; ADeliver 66; ADeliver 66; ADeliver 66;
   x_call 20 1 "p" []; ARoute 20; ADeliver 10; x_yield 10 2 []; ARoute 10; ADeliver 20].
Example C113_case_foreign : disciplined Rpc 10 x_foreign /\ disciplined Rpc 20 x_foreign /\ disciplined PubSub 10 x_foreign /\
  idle 10 (fst (nrun x_foreign)) /\ idle 20 (fst (nrun x_foreign)) /\ shown (nrun x_foreign) =
  [(10, Registered (mkRegistered (PyInt 1) (PyInt 1)), true);
   (10, Subscribed (mkSubscribed (PyInt 2) (PyInt 1)), true);
   (10, Event (mkEvent (PyInt 1) (PyInt 2) None None []), true);
   (10, Event (mkEvent (PyInt 1) (PyInt 3) None None []), true);
   (66, Published (mkPublished (PyInt 1) (PyInt 2)), false);
   (66, Published (mkPublished (PyInt 1) (PyInt 3)), false);
   (66, Error (mkError (PyInt 64) (PyInt 1) "wamp.error.procedure_already_exists" None None []), false);
   (10, Invocation (mkInvocation (PyInt 2) (PyInt 1) None None [] no_bin), true);
   (20, Result (mkResult (PyInt 1) None None [] no_bin), true)].
Proof.
  split.
  { split; [apply reused_by_ok; reflexivity|]. intros _. split; [vm_compute; repeat constructor|]. left. intros m H. in_sent H. }
  split.
  { split; [apply reused_by_ok; reflexivity|]. intros _. split; [vm_compute; repeat constructor|]. left. intros m H. in_sent H. }
  split; [split; [apply reused_by_ok; reflexivity|discriminate]|].
  split; [eexists; vm_compute; reflexivity|]. split; [eexists; vm_compute; reflexivity|]. vm_compute. reflexivity.
Qed.
