(** * PropsNetwork: property theorems C69, C77-C80 (clients, links and router together).

    [nrun acts] executes any schedule of joins, departures, sends, routing steps and deliveries and returns the network
    and the trace (newest first); a delivery shows up as [Delivered m r] with [r] what receive_message returned. *)
From Coq Require Import String Ascii List ZArith Bool Lia.
From Verif Require Import PyBase Messages IdGen Joiner Session Broker Dealer SpecDealer Network SpecNetwork NetworkFacts NetworkInv NetworkLive.
Import ListNotations.
Local Open Scope string_scope.
Local Open Scope Z_scope.
Local Open Scope list_scope.

(** C69 *)
Theorem C69_pubsub_accepted : forall acts s m r,
  routings acts <= 2 ^ 53 -> no_reuse PubSub acts ->
  In (ADeliver s, Delivered m r) (snd (nrun acts)) ->
  match m with Event _ | Subscribed _ | Unsubscribed _ | Published _ => r = Ok m | _ => True end.
Proof.
  intros acts s m r L R H. destruct m; try exact Logic.I;
    (refine (deliveries_accepted everyone PubSub acts _ _ _ Logic.I _ H eq_refl); apply allowed_everyone; [exact L|exact R|discriminate]).
Qed.
Print Assumptions C69_pubsub_accepted.

Definition x_join n := AJoin (mkDetails (PyInt n) "realm" None None).
Definition x_sub s r t := ASend s (Subscribe (mkSubscribe (PyInt r) t [])).
Definition x_unsub s r i := ASend s (Unsubscribe (mkUnsubscribe (PyInt r) (PyInt i))).
Definition x_pub s r t o := ASend s (Publish (mkPublish (PyInt r) t None None o)).
Definition ACK : dict := [(VStr "acknowledge", VBool true)].
(** Two clients; the events of 20's publications overtake nothing: 10 unsubscribes while an event is on its way,
    leaves, joins again under the same id and subscribes again. *)
Definition x_acts : list action :=
  [x_join 10; x_join 20; x_sub 10 1 "a"; x_pub 20 1 "a" ACK; ARoute 10; x_pub 20 2 "a" []; ARoute 20; ARoute 20;
   ADeliver 10; x_unsub 10 1 1; ARoute 10; x_sub 10 2 "a"; ADeliver 20; ADeliver 10; ADeliver 10; ARoute 10; ADeliver 10;
   ADeliver 10; ALeave 10; x_join 10; x_sub 10 1 "a"; ARoute 10; ADeliver 10; x_pub 20 3 "a" []; ARoute 20; ADeliver 10].
Definition shown (nh : net * ntrace) : list (Z * message * bool) :=
  flat_map (fun e => match e with
                     | (ADeliver s, Delivered m r) => [(s, m, match r with Ok _ => true | _ => false end)]
                     | _ => [] end) (rev (snd nh)).

(** [no_reuse] for concrete schedules. *)
Fixpoint reused_in (hf : half) (s : Z) (m : message) (rest : list action) : bool :=
  match rest with
  | [] => false
  | ALeave s' :: rest => if s' =? s then false else reused_in hf s m rest
  | ASend s' m' :: rest =>
      (if s' =? s then
         match asks m, asks m' with
         | Some (k, r), Some (k', r') => in_half hf k && kind_eqb k k' && (r =? r')
         | _, _ => false
         end else false) || reused_in hf s m rest
  | _ :: rest => reused_in hf s m rest
  end.
Fixpoint reused (hf : half) (acts : list action) : bool :=
  match acts with
  | [] => false
  | ASend s m :: rest => reused_in hf s m rest || reused hf rest
  | APut _ _ :: _ => true
  | _ :: rest => reused hf rest
  end.
Lemma reused_in_ok hf s m m2 k r : forall between after, in_half hf k = true -> asks m = Some (k, r) -> asks m2 = Some (k, r) ->
  reused_in hf s m (between ++ ASend s m2 :: after) = false -> In (ALeave s) between.
Proof.
  intros between after Hk H1 H2. induction between as [|a b IH]; cbn [app reused_in].
  - rewrite Z.eqb_refl, H1, H2, Hk, Z.eqb_refl. destruct k; discriminate.
  - destruct a as [d|s'|s' m'|s'|s'|s' m']; try (intros H; right; auto; fail).
    + destruct (Z.eqb_spec s' s) as [->|]; [left; reflexivity|]. intros H. right. auto.
    + intros H. right. apply orb_false_iff in H. apply IH. apply H.
Qed.
Lemma reused_ok hf acts : reused hf acts = false -> no_reuse hf acts.
Proof.
  intros H. split.
  { intros s m I0. induction acts as [|a acts IH]; [destruct I0|]. cbn [reused] in H. destruct I0 as [->|I0]; [discriminate|].
    apply IH; [|exact I0]. destruct a; try exact H; [apply orb_false_iff in H; apply H|discriminate]. }
  intros before s m1 between m2 after k r -> Hk H1 H2. induction before as [|a b IH]; cbn [app reused] in H.
  - apply orb_false_iff in H. eapply reused_in_ok; [exact Hk|exact H1|exact H2|apply H].
  - destruct a; try (apply IH; exact H); [apply orb_false_iff in H; apply IH, H|discriminate].
Qed.

Example C69_case : no_reuse PubSub x_acts /\ shown (nrun x_acts) =
  [(10, Subscribed (mkSubscribed (PyInt 1) (PyInt 1)), true);
   (20, Published (mkPublished (PyInt 1) (PyInt 2)), true);
   (10, Event (mkEvent (PyInt 1) (PyInt 2) None None []), true);
   (10, Event (mkEvent (PyInt 1) (PyInt 3) None None []), true);
   (10, Unsubscribed (mkUnsubscribed (PyInt 1)), true);
   (10, Subscribed (mkSubscribed (PyInt 2) (PyInt 4)), true);
   (10, Subscribed (mkSubscribed (PyInt 1) (PyInt 5)), true);
   (10, Event (mkEvent (PyInt 5) (PyInt 6) None None []), true)].
Proof. split; [apply reused_ok; reflexivity|vm_compute; reflexivity]. Qed.

(** C77 *)
Theorem C77_rpc_accepted : forall acts s m r,
  routings acts <= 2 ^ 53 -> no_reuse Rpc acts -> fresh_sessions acts -> no_progress acts ->
  In (ADeliver s, Delivered m r) (snd (nrun acts)) ->
  match m with Registered _ | Unregistered _ | Invocation _ | Result _ | Error _ => r = Ok m | _ => True end.
Proof.
  intros acts s m r L R F P H. destruct m; try exact Logic.I;
    (refine (deliveries_accepted everyone Rpc acts _ _ _ Logic.I _ H eq_refl); apply allowed_everyone; [exact L|exact R|auto]).
Qed.
Print Assumptions C77_rpc_accepted.

Definition x_reg s r p := ASend s (Register (mkRegister (PyInt r) p [])).
Definition x_unreg s r i := ASend s (Unregister (mkUnregister (PyInt r) (PyInt i))).
Definition no_bin := mkBin None None false.
Definition x_call s r p o := ASend s (Call (mkCall (PyInt r) p None None o no_bin)).
Definition x_yield s r o := ASend s (Yield (mkYield (PyInt r) None None o no_bin)).
Definition x_err s r := ASend s (Error (mkError (PyInt 68) (PyInt r) "some.error" None None [])).
Definition x_rpc : list action :=
  [x_join 10; x_join 20; x_reg 10 1 "p"; x_call 20 1 "p" []; ARoute 20; ADeliver 20; ARoute 10; x_call 20 2 "p" []; ARoute 20;
   x_call 20 3 "p" []; ARoute 20; x_unreg 10 1 1; ADeliver 10; ADeliver 10; ARoute 10; x_yield 10 2 []; ADeliver 10; ADeliver 10;
   x_err 10 3; ARoute 10; ARoute 10; x_reg 20 1 "p"; ARoute 20; ADeliver 20; x_reg 10 2 "p"; ARoute 10; ADeliver 10; ADeliver 20; ADeliver 20].
Example C77_case : no_reuse Rpc x_rpc /\ fresh_sessions x_rpc /\ no_progress x_rpc /\ shown (nrun x_rpc) =
  [(20, Error (mkError (PyInt 48) (PyInt 1) "wamp.error.no_such_procedure" None None []), true);
   (10, Registered (mkRegistered (PyInt 1) (PyInt 1)), true);
   (10, Invocation (mkInvocation (PyInt 2) (PyInt 1) None None [] no_bin), true);
   (10, Invocation (mkInvocation (PyInt 3) (PyInt 1) None None [] no_bin), true);
   (10, Unregistered (mkUnregistered (PyInt 1)), true);
   (20, Result (mkResult (PyInt 2) None None [] no_bin), true);
   (10, Error (mkError (PyInt 64) (PyInt 2) "wamp.error.procedure_already_exists" None None []), true);
   (20, Error (mkError (PyInt 48) (PyInt 3) "some.error" None None []), true);
   (20, Registered (mkRegistered (PyInt 1) (PyInt 4)), true)].
Proof.
  split; [apply reused_ok; reflexivity|]. split; [repeat constructor; cbn; intuition discriminate|]. split.
  - left. intros s m [H|H]; repeat (destruct H as [H|H]; [try discriminate; try (injection H as <- <-; reflexivity)|]); destruct H.
  - vm_compute. reflexivity.
Qed.

(** C78: each hypothesis of C69 and C77 is needed.  A request id used twice: the second SUBSCRIBED is rejected, and then
    every EVENT of that subscription. *)
Theorem C78_reuse_refuted : exists acts s m e x y, fresh_sessions acts /\
  In (ADeliver s, Delivered (Subscribed m) (Raise e)) (snd (nrun acts)) /\
  In (ADeliver s, Delivered (Event x) (Raise y)) (snd (nrun acts)).
Proof.
  exists [x_join 10; x_sub 10 1 "a"; x_sub 10 1 "b"; ARoute 10; ARoute 10; ADeliver 10; ADeliver 10; x_pub 10 1 "b" []; ARoute 10; ADeliver 10], 10.
  eexists _, _, _, _. split; [repeat constructor; cbn; tauto|]. vm_compute. split; [do 3 right|]; left; reflexivity.
Qed.
Print Assumptions C78_reuse_refuted.

(** Progressive results: the caller's session takes the progressive RESULT for the end of the call, so what follows is
    rejected.  (The callee's session refuses a second YIELD, but not an ERROR.) *)
Theorem C78_progress_refuted : exists acts s m e, fresh_sessions acts /\ no_reuse Rpc acts /\
  In (ADeliver s, Delivered (Error m) (Raise e)) (snd (nrun acts)).
Proof.
  exists [x_join 10; x_join 20; x_reg 10 1 "p"; ARoute 10; ADeliver 10; x_call 20 1 "p" [(VStr "receive_progress", VBool true)]; ARoute 20;
          ADeliver 10; x_yield 10 2 [(VStr "progress", VBool true)]; ARoute 10; ADeliver 20; x_err 10 2; ARoute 10; ADeliver 20], 20.
  eexists _, _. split; [repeat constructor; cbn; intuition discriminate|]. split; [apply reused_ok; reflexivity|].
  vm_compute. left. reflexivity.
Qed.
Print Assumptions C78_progress_refuted.

(** A session id used again: the RESULT of the earlier client's call reaches the new client, which rejects it. *)
Theorem C78_session_reuse_refuted : exists acts s m e, no_reuse Rpc acts /\ no_progress acts /\
  In (ADeliver s, Delivered (Result m) (Raise e)) (snd (nrun acts)).
Proof.
  exists [x_join 10; x_join 20; x_reg 10 1 "p"; ARoute 10; ADeliver 10; x_call 20 1 "p" []; ARoute 20; ALeave 20; x_join 20;
          ADeliver 10; x_yield 10 2 []; ARoute 10; ADeliver 20], 20.
  eexists _, _. split; [apply reused_ok; reflexivity|]. split.
  - left. intros s m [H|H]; repeat (destruct H as [H|H]; [try discriminate; try (injection H as <- <-; reflexivity)|]); destruct H.
  - vm_compute. left. reflexivity.
Qed.
Print Assumptions C78_session_reuse_refuted.

(** C79: nothing is lost.  [s] sends [m] while connected, stays, and at the end nothing is in transit on its links. *)
Theorem C79_pubsub_answered : forall before s m after, let acts := before ++ ASend s m :: after in
  routings acts <= 2 ^ 53 -> no_reuse PubSub acts ->
  connected s (fst (nrun before)) = true -> ~ In (ALeave s) after -> idle s (fst (nrun acts)) ->
  match m with
  | Subscribe _ => True
  | Publish p => wants "acknowledge" (pb_options p) = true
  | _ => False
  end ->
  got_answer s m (snd (nrun acts)).
Proof.
  intros before s m after acts L R Hc Hl Hi Hm.
  assert (A : allowed everyone PubSub acts) by (apply allowed_everyone; [exact L|exact R|discriminate]).
  destruct m; try contradiction.
  - destruct (requests_answered everyone PubSub before s (Publish m) after RPub (pyint_Z (pb_request m)) Logic.I A eq_refl eq_refl) as [H|[H _]]; auto; [|discriminate].
    cbn [up_req asks kind_eqb]. unfold acknowledged, sget_default. unfold wants in Hm. destruct (sget "acknowledge" (pb_options m)); [rewrite Hm; reflexivity|discriminate].
  - destruct (requests_answered everyone PubSub before s (Subscribe m) after RSub (pyint_Z (su_request m)) Logic.I A eq_refl eq_refl eq_refl) as [H|[H _]]; auto. discriminate.
Qed.
Print Assumptions C79_pubsub_answered.

Theorem C79_rpc_answered : forall before s m after, let acts := before ++ ASend s m :: after in
  routings acts <= 2 ^ 53 -> no_reuse Rpc acts -> fresh_sessions acts -> no_progress acts ->
  connected s (fst (nrun before)) = true -> ~ In (ALeave s) after -> idle s (fst (nrun acts)) ->
  match m with
  | Register _ => got_answer s m (snd (nrun acts))
  | Call c => got_answer s m (snd (nrun acts)) \/ waiting s (pyint_Z (ca_request c)) (fst (nrun acts))
  | _ => True
  end.
Proof.
  intros before s m after acts L R F P Hc Hl Hi.
  assert (A : allowed everyone Rpc acts) by (apply allowed_everyone; [exact L|exact R|auto]).
  destruct m; try exact Logic.I.
  - destruct (requests_answered everyone Rpc before s (Call m) after RCall (pyint_Z (ca_request m)) Logic.I A eq_refl eq_refl eq_refl) as [H|[_ H]]; auto.
  - destruct (requests_answered everyone Rpc before s (Register m) after RReg (pyint_Z (rg_request m)) Logic.I A eq_refl eq_refl eq_refl) as [H|[H _]]; auto. discriminate.
Qed.
Print Assumptions C79_rpc_answered.

(** The schedule of C69 up to the departure, and the one of C77 with a fourth call that nobody has answered yet. *)
Example C79_pubsub_case :
  let acts := firstn 18 x_acts in let s1 := x_sub 10 2 "a" in
  acts = firstn 11 x_acts ++ s1 :: skipn 12 acts /\ no_reuse PubSub acts /\
  connected 10 (fst (nrun (firstn 11 x_acts))) = true /\ ~ In (ALeave 10) (skipn 12 acts) /\ idle 10 (fst (nrun acts)).
Proof.
  cbv zeta. split; [reflexivity|]. split; [apply reused_ok; reflexivity|]. split; [vm_compute; reflexivity|]. split.
  - vm_compute. intuition discriminate.
  - eexists. vm_compute. reflexivity.
Qed.
Definition x_rpc2 := x_rpc ++ [x_call 10 7 "p" []; ARoute 10; ADeliver 20].
Example C79_rpc_case : no_reuse Rpc x_rpc2 /\ fresh_sessions x_rpc2 /\ no_progress x_rpc2 /\
  idle 10 (fst (nrun x_rpc2)) /\ waiting 10 7 (fst (nrun x_rpc2)) /\ idle 20 (fst (nrun x_rpc2)) /\
  got_answer 20 (Call (mkCall (PyInt 3) "p" None None [] no_bin)) (snd (nrun x_rpc2)).
Proof.
  split; [apply reused_ok; reflexivity|]. split; [repeat constructor; cbn; intuition discriminate|]. split.
  { left. intros s m [H|H]; repeat (destruct H as [H|H]; [try discriminate; try (injection H as <- <-; reflexivity)|]); destruct H. }
  split; [eexists; vm_compute; reflexivity|]. split; [exists 5; eexists; vm_compute; repeat split|]. split; [eexists; vm_compute; reflexivity|].
  exists (Error (mkError (PyInt 48) (PyInt 3) "some.error" None None [])). split; [reflexivity|]. vm_compute. tauto.
Qed.

(** C80: an UNSUBSCRIBE or UNREGISTER of something the client does not hold is never answered. *)
Theorem C80_unsubscribe_refuted : exists s m n t,
  nrun [x_join 10; ASend s (Unsubscribe m); ARoute s; ADeliver s] = (n, t) /\ idle s n /\ ~ got_answer s (Unsubscribe m) t.
Proof.
  exists 10, (mkUnsubscribe (PyInt 1) (PyInt 1)). eexists _, _. split; [vm_compute; reflexivity|]. split; [eexists; vm_compute; reflexivity|].
  intros (x & _ & H). vm_compute in H. intuition discriminate.
Qed.
Print Assumptions C80_unsubscribe_refuted.
Theorem C80_unregister_refuted : exists s m n t,
  nrun [x_join 10; ASend s (Unregister m); ARoute s; ADeliver s] = (n, t) /\ idle s n /\ ~ got_answer s (Unregister m) t.
Proof.
  exists 10, (mkUnregister (PyInt 1) (PyInt 1)). eexists _, _. split; [vm_compute; reflexivity|]. split; [eexists; vm_compute; reflexivity|].
  intros (x & _ & H). vm_compute in H. intuition discriminate.
Qed.
Print Assumptions C80_unregister_refuted.
