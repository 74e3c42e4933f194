(** * PropsRest: property theorems C109 (a silent network comes to rest, and then everything is answered) and C110 (events and
    invocations come only while the client holds what they are about). *)
From Coq Require Import String Ascii List ZArith Bool Lia.
From Verif Require Import PyBase Messages IdGen Joiner Session Broker Dealer SpecDealer Network SpecNetwork NetworkInv NetworkLive SpecRest NetworkRest SpecHold NetworkHold.
From Verif Require Import PropsNetwork.
Import ListNotations.
Local Open Scope string_scope.
Local Open Scope Z_scope.
Local Open Scope list_scope.

(** C109: while the clients send nothing, the router and the links can take only so many steps, in whatever order ... *)
Theorem C109_bounded : forall acts more, busy acts more -> let n := fst (nrun acts) in
  (length more <= to_router n * (1 + 2 * length (nt_clients n)) + to_clients n)%nat /\
  forall s, connected s (fst (nrun (acts ++ more))) = connected s n.
Proof.
  intros acts more B n. destruct (busy_bounded more acts B) as [L C]. split; [|exact C]. fold n in L. unfold load in L at 2. lia.
Qed.
Print Assumptions C109_bounded.

(** ... whichever order they take them in, they can be continued until no message is left ... *)
Theorem C109_comes_to_rest : forall acts, exists more, busy acts more /\ at_rest (fst (nrun (acts ++ more))).
Proof. exact comes_to_rest. Qed.
Print Assumptions C109_comes_to_rest.
Theorem C109_rest_is_idle : forall n s, at_rest n -> connected s n = true -> idle s n.
Proof. exact rest_idle. Qed.
Print Assumptions C109_rest_is_idle.

(** ... and then everybody who is still there has been answered. *)
Theorem C109_pubsub_answered : forall before s m after more, let acts := before ++ ASend s m :: after in
  busy acts more -> at_rest (fst (nrun (acts ++ more))) ->
  routings (acts ++ more) <= 2 ^ 53 -> no_reuse PubSub acts ->
  connected s (fst (nrun before)) = true -> ~ In (ALeave s) after ->
  match m with Subscribe _ => True | Publish p => wants "acknowledge" (pb_options p) = true | _ => False end ->
  got_answer s m (snd (nrun (acts ++ more))).
Proof.
  intros before s m after more acts B Q L R C Hl Hm.
  pose proof (C79_pubsub_answered before s m (after ++ more)) as H. cbv zeta in H.
  replace (before ++ ASend s m :: after ++ more) with (acts ++ more) in H by (unfold acts; rewrite <- app_assoc; reflexivity).
  apply H; try assumption.
  - apply busy_reuse; assumption.
  - intros I0. apply in_app_iff in I0. destruct I0 as [I0|I0]; [exact (Hl I0)|exact (busy_stays s acts more B I0)].
  - apply rest_idle; [exact Q|]. rewrite (proj2 (busy_bounded more acts B)). unfold acts.
    change (ASend s m :: after) with ([ASend s m] ++ after). apply stays_connected; [exact C|]. intros [X|I0]; [discriminate|exact (Hl I0)].
Qed.
Print Assumptions C109_pubsub_answered.
Theorem C109_rpc_answered : forall before s m after more, let acts := before ++ ASend s m :: after in
  busy acts more -> at_rest (fst (nrun (acts ++ more))) ->
  routings (acts ++ more) <= 2 ^ 53 -> no_reuse Rpc acts -> fresh_sessions acts -> no_progress acts ->
  connected s (fst (nrun before)) = true -> ~ In (ALeave s) after ->
  match m with
  | Register _ => got_answer s m (snd (nrun (acts ++ more)))
  | Call c => got_answer s m (snd (nrun (acts ++ more))) \/ waiting s (pyint_Z (ca_request c)) (fst (nrun (acts ++ more)))
  | _ => True
  end.
Proof.
  intros before s m after more acts B Q L R F P C Hl.
  pose proof (C79_rpc_answered before s m (after ++ more)) as H. cbv zeta in H.
  replace (before ++ ASend s m :: after ++ more) with (acts ++ more) in H by (unfold acts; rewrite <- app_assoc; reflexivity).
  apply H; try assumption.
  - apply busy_reuse; assumption.
  - unfold fresh_sessions. rewrite busy_joined by exact B. exact F.
  - apply busy_progress; assumption.
  - intros I0. apply in_app_iff in I0. destruct I0 as [I0|I0]; [exact (Hl I0)|exact (busy_stays s acts more B I0)].
  - apply rest_idle; [exact Q|]. rewrite (proj2 (busy_bounded more acts B)). unfold acts.
    change (ASend s m :: after) with ([ASend s m] ++ after). apply stays_connected; [exact C|]. intros [X|I0]; [discriminate|exact (Hl I0)].
Qed.
Print Assumptions C109_rpc_answered.

(** Three messages wait for the router, one for a client; seven more steps empty the links. *)
Definition x_loaded : list action := [x_join 10; x_join 20; x_sub 10 1 "a"; ARoute 10; x_pub 20 1 "a" ACK; x_pub 20 2 "b" []; x_sub 20 3 "a"].
Definition x_rest : list action := [ARoute 20; ADeliver 10; ARoute 20; ADeliver 20; ADeliver 10; ARoute 20; ADeliver 20].
Lemma busy_check acts more : forallb (fun k => match nth_error more k with
    | Some (ARoute s) => match zget s (nt_clients (fst (nrun (acts ++ firstn k more)))) with Some cl => negb (Nat.eqb (length (cl_up cl)) 0) | None => false end
    | Some (ADeliver s) => match zget s (nt_clients (fst (nrun (acts ++ firstn k more)))) with Some cl => negb (Nat.eqb (length (cl_down cl)) 0) | None => false end
    | _ => false end) (seq 0 (length more)) = true -> busy acts more.
Proof.
  intros H b a c ->. rewrite forallb_forall in H. specialize (H (length b)). rewrite app_length, in_seq in H. cbn [length] in H. specialize (H ltac:(lia)).
  rewrite nth_error_app2, Nat.sub_diag, firstn_app, Nat.sub_diag, firstn_all in H by lia. cbn [nth_error firstn] in H. rewrite app_nil_r in H.
  destruct a; try discriminate; cbn [has_work]; destruct (zget s _) as [cl|]; try discriminate; exists cl; (split; [reflexivity|]); intros X; rewrite X in H; discriminate.
Qed.
Example C109_case : busy x_loaded x_rest /\ to_router (fst (nrun x_loaded)) = 3%nat /\ to_clients (fst (nrun x_loaded)) = 1%nat /\
  at_rest (fst (nrun (x_loaded ++ x_rest))) /\ ~ at_rest (fst (nrun (x_loaded ++ firstn 5 x_rest))) /\
  no_reuse PubSub x_loaded /\
  got_answer 20 (Publish (mkPublish (PyInt 1) "a" None None ACK)) (snd (nrun (x_loaded ++ x_rest))).
Proof.
  split; [apply busy_check; vm_compute; reflexivity|]. split; [vm_compute; reflexivity|]. split; [vm_compute; reflexivity|]. split.
  { intros [| | |s|s|] W; cbn [has_work] in W; try contradiction; destruct W as (cl & G & W); unfold zget in G; vm_compute in G;
      (repeat match type of G with (if ?b then _ else _) = _ => destruct b end); try (injection G as <-; apply W; reflexivity); try discriminate;
      destruct s as [|p|p]; try discriminate; repeat (destruct p as [p|p|]; try discriminate); injection G as <-; apply W; reflexivity. }
  split. { intros R. apply (R (ARoute 20)). cbn [has_work]. eexists. split; [vm_compute; reflexivity|discriminate]. }
  split; [apply reused_ok; reflexivity|]. exists (Published (mkPublished (PyInt 1) (PyInt 2))). split; [reflexivity|]. vm_compute. tauto.
Qed.

(** C110: a client receives an EVENT only while it is subscribed, as far as it has been told: it received a SUBSCRIBED with
    the event's subscription id, has not left since, and has not received the UNSUBSCRIBED for it since. *)
Theorem C110_events_while_subscribed : forall acts s e, routings acts <= 2 ^ 53 -> no_reuse PubSub acts ->
  next_is acts s (Event e) -> held PubSub acts s (pyint_Z (ev_subscription e)).
Proof. intros acts s e L R N. apply (only_while_held everyone PubSub acts s (Event e)); [exact Logic.I|apply allowed_everyone; [exact L|exact R|discriminate]|exact N|reflexivity]. Qed.
Print Assumptions C110_events_while_subscribed.
Theorem C110_invocations_while_registered : forall acts s v, routings acts <= 2 ^ 53 -> no_reuse Rpc acts -> fresh_sessions acts -> no_progress acts ->
  next_is acts s (Invocation v) -> held Rpc acts s (pyint_Z (iv_registration v)).
Proof. intros acts s v L R F P N. apply (only_while_held everyone Rpc acts s (Invocation v)); [exact Logic.I|apply allowed_everyone; [exact L|exact R|auto]|exact N|reflexivity]. Qed.
Print Assumptions C110_invocations_while_registered.

(** An event reaches session 10 although its UNSUBSCRIBE has been sent; the UNSUBSCRIBED follows. *)
Definition x_ending : list action := [x_join 10; x_join 20; x_sub 10 1 "a"; ARoute 10; ADeliver 10; x_unsub 10 2 1; x_pub 20 1 "a" []; ARoute 20; ARoute 10].
Example C110_case : no_reuse PubSub (x_ending ++ [ADeliver 10]) /\ next_is x_ending 10 (Event (mkEvent (PyInt 1) (PyInt 2) None None [])) /\
  held PubSub x_ending 10 1 /\ told_end PubSub (x_ending ++ [ADeliver 10]) 10 1 /\ ~ held PubSub (x_ending ++ [ADeliver 10; ADeliver 10]) 10 1.
Proof.
  assert (N : next_is x_ending 10 (Event (mkEvent (PyInt 1) (PyInt 2) None None []))) by (eexists; vm_compute; reflexivity).
  assert (R : no_reuse PubSub x_ending) by (apply reused_ok; reflexivity).
  assert (T : told_end PubSub (x_ending ++ [ADeliver 10]) 10 1).
  { exists (Unsubscribed (mkUnsubscribed (PyInt 2))), (firstn 5 x_ending), (Unsubscribe (mkUnsubscribe (PyInt 2) (PyInt 1))), (skipn 6 x_ending ++ [ADeliver 10]).
    split; [eexists; vm_compute; reflexivity|]. split; [reflexivity|]. split; [reflexivity|]. split; [vm_compute; reflexivity|]. split; [vm_compute; intuition discriminate|reflexivity]. }
  split; [apply reused_ok; reflexivity|]. split; [exact N|]. split.
  { apply (C110_events_while_subscribed x_ending 10 _ ltac:(vm_compute; discriminate) R N). }
  split; [exact T|]. intros (a1 & y & a2 & E & (r & X) & G & L & H).
  assert (P : exists b, a2 = b ++ [ADeliver 10] \/ a2 = []).
  { destruct a2 as [|z a2] using rev_ind; [exists []; right; reflexivity|]. exists a2. left. f_equal.
    change (x_ending ++ [ADeliver 10; ADeliver 10]) with ((x_ending ++ [ADeliver 10]) ++ [ADeliver 10]) in E.
    rewrite app_comm_cons, app_assoc in E. apply app_inj_tail in E. destruct E as [_ E]. rewrite <- E. reflexivity. }
  destruct P as (b & [P|P]); subst a2.
  - apply (H b [] eq_refl). change (x_ending ++ [ADeliver 10; ADeliver 10]) with ((x_ending ++ [ADeliver 10]) ++ [ADeliver 10]) in E.
    rewrite app_comm_cons, app_assoc in E. apply app_inj_tail in E. destruct E as [E _]. rewrite <- E. exact T.
  - change (x_ending ++ [ADeliver 10; ADeliver 10]) with ((x_ending ++ [ADeliver 10]) ++ [ADeliver 10]) in E. apply app_inj_tail in E. destruct E as [<- _].
    vm_compute in X. injection X as <- <-. discriminate.
Qed.
