(** * SessionFacts: the session's tables agree with the history-based specification. *)
From Coq Require Import String Ascii List ZArith Bool Lia.
From Verif Require Import PyBase Messages Parse Serializer SpecSchema SerializerFacts RoundTripFacts.
From Verif Require Import SpecHistory Session SpecSession SessionRun DictFacts.
Import ListNotations.
Local Open Scope Z_scope.

Lemma since_spec {E} (opens closes : E -> bool) h : since opens closes h = true <->
  exists newer e older, h = newer ++ e :: older /\ opens e = true /\ forall x, In x newer -> closes x = false.
Proof.
  induction h as [|e h IH]; cbn [since].
  - split; [discriminate|]. intros (n & e & o & H & _). destruct n; discriminate.
  - destruct (opens e) eqn:O.
    + split; [|reflexivity]. intros _. exists [], e, h. cbn. split; [reflexivity|]. split; [exact O|tauto].
    + destruct (closes e) eqn:C.
      * split; [discriminate|]. intros (n & e' & o & H & Ho & Hc). destruct n as [|x n]; cbn in H; injection H as -> ->.
        -- congruence.
        -- rewrite (Hc x) in C by (left; reflexivity). discriminate.
      * rewrite IH. split; intros (n & e' & o & H & Ho & Hc).
        -- exists (e :: n), e', o. rewrite H. split; [reflexivity|]. split; [exact Ho|].
           intros x [<-|Hx]; auto.
        -- destruct n as [|x n]; cbn in H; injection H as -> ->; [congruence|].
           exists n, e', o. split; [reflexivity|]. split; [exact Ho|]. intros y Hy. apply Hc. right. exact Hy.
Qed.

Record Inv (s : session) (h : history) : Prop := mkInv {
  nd_call : NoDup (call_requests s);
  nd_register : NoDup (register_requests s);
  nd_registrations : NoDup (registrations s);
  nd_invocation : NoDup (invocation_requests s);
  nd_unregister : NoDup (map fst (unregister_requests s));
  nd_publish : NoDup (publish_requests s);
  nd_subscribe : NoDup (subscribe_requests s);
  nd_subscriptions : NoDup (subscriptions s);
  nd_unsubscribe : NoDup (map fst (unsubscribe_requests s));
  ok_call : forall r, smem r (call_requests s) = call_open r h;
  ok_register : forall r, smem r (register_requests s) = register_open r h;
  ok_registrations : forall g, smem g (registrations s) = registered_now g h;
  ok_invocation : forall r, smem r (invocation_requests s) = invocation_open r h;
  ok_unregister : forall r, zget r (unregister_requests s) = unregister_target r h;
  ok_publish : forall r, smem r (publish_requests s) = publish_open r h;
  ok_subscribe : forall r, smem r (subscribe_requests s) = subscribe_open r h;
  ok_subscriptions : forall g, smem g (subscriptions s) = subscribed_now g h;
  ok_unsubscribe : forall r, zget r (unsubscribe_requests s) = unsubscribe_target r h }.

Lemma Inv_init : Inv session_init [].
Proof. constructor; intros; try constructor; reflexivity. Qed.

Lemma zget_zset k v (d : list (Z * Z)) k' : zget k' (zset k v d) = if k' =? k then Some v else zget k' d.
Proof. apply dget_dset. exact Zeqb_ok. Qed.
Lemma zget_zdel k (d : list (Z * Z)) k' : NoDup (map fst d) ->
  zget k' (zdel k d) = if k' =? k then None else zget k' d.
Proof. apply dget_ddel. exact Zeqb_ok. Qed.
Lemma zmem_get k (d : list (Z * Z)) : zmem k d = open (zget k d).
Proof. reflexivity. Qed.

Ltac unfold_spec :=
  cbn [since registered_now subscribed_now unregister_target unsubscribe_target
       sent_call answered_call sent_ack_publish answered_publish sent_register answered_register
       got_invocation finished_invocation sent_subscribe answered_subscribe rcv_error].

Ltac unfold_spec_def :=
  unfold call_open, publish_open, register_open, invocation_open, subscribe_open in *.

Ltac fields := cbn [call_requests register_requests registrations invocation_requests unregister_requests
  publish_requests subscribe_requests subscriptions unsubscribe_requests set_call_requests set_register_requests
  set_registrations set_invocation_requests set_unregister_requests set_publish_requests set_subscribe_requests
  set_subscriptions set_unsubscribe_requests].

(** The result of [send_track] is an outcome independent of the codec; the history flag of a send does not matter. *)
Lemma Inv_send s h m b : Inv s h -> Inv (fst (send_track s m)) ((Snd m, b) :: h).
Proof.
  intros I. pose proof I as I0. destruct I0.
  destruct m; cbn [send_track fst];
    try (constructor; fields; unfold_spec_def; intros; unfold_spec; rewrite ?andb_false_r; auto; fail).
  - (* Error *)
    destruct (Z.eqb_spec (pyint_Z (er_type m)) T_INVOCATION) as [E|E]; cbn [negb fst];
      constructor; fields; unfold_spec_def; intros; unfold_spec; auto using NoDup_srem.
    + rewrite smem_srem by assumption. rewrite E, Z.eqb_refl, (Z.eqb_sym r). cbn [andb].
      destruct (pyint_Z (er_request m) =? r); cbn [negb andb]; auto.
    + rewrite (proj2 (Z.eqb_neq _ _) E). cbn [andb]. auto.
  - (* Publish *)
    unfold sget_default. destruct (sget "acknowledge" (pb_options m)) as [v|] eqn:G;
      [destruct (truthy v) eqn:T|]; cbn [truthy fst];
      constructor; fields; unfold_spec_def; intros; unfold_spec; rewrite ?G, ?T, ?andb_false_r, ?andb_true_r;
      auto using NoDup_sadd.
    rewrite smem_sadd, (Z.eqb_sym r). destruct (pyint_Z (pb_request m) =? r); cbn [orb]; auto.
  - constructor; fields; unfold_spec_def; intros; unfold_spec; auto using NoDup_sadd.
    rewrite smem_sadd, (Z.eqb_sym r). destruct (pyint_Z (su_request m) =? r); cbn [orb]; auto.
  - constructor; fields; unfold_spec_def; intros; unfold_spec; auto.
    + apply NoDup_dset; auto using Zeqb_ok.
    + rewrite zget_zset, (Z.eqb_sym r). destruct (pyint_Z (us_request m) =? r); auto.
  - constructor; fields; unfold_spec_def; intros; unfold_spec; auto using NoDup_sadd.
    rewrite smem_sadd, (Z.eqb_sym r). destruct (pyint_Z (ca_request m) =? r); cbn [orb]; auto.
  - constructor; fields; unfold_spec_def; intros; unfold_spec; auto using NoDup_sadd.
    rewrite smem_sadd, (Z.eqb_sym r). destruct (pyint_Z (rg_request m) =? r); cbn [orb]; auto.
  - constructor; fields; unfold_spec_def; intros; unfold_spec; auto.
    + apply NoDup_dset; auto using Zeqb_ok.
    + rewrite zget_zset, (Z.eqb_sym r). destruct (pyint_Z (ur_request m) =? r); auto.
  - (* Yield *)
    destruct (smem (pyint_Z (yi_request m)) (invocation_requests s)) eqn:M; cbn [fst];
      constructor; fields; unfold_spec_def; intros; unfold_spec; auto using NoDup_srem.
    + rewrite smem_srem by assumption. rewrite (Z.eqb_sym r).
      destruct (pyint_Z (yi_request m) =? r); cbn [negb andb]; auto.
    + destruct (Z.eqb_spec (pyint_Z (yi_request m)) r) as [<-|]; auto.
Qed.

Lemma send_accept s h m : Inv s h ->
  (acceptable h (Snd m) = true -> snd (send_track s m) = Ok tt) /\
  (acceptable h (Snd m) = false -> exists e, send_track s m = (s, Raise (ValueError [e]))).
Proof.
  intros I. destruct I.
  destruct m; cbn [acceptable send_track]; try (split; [reflexivity|discriminate]);
    try (split; [discriminate|intros _; eexists; reflexivity]).
  - destruct (pyint_Z (er_type m) =? T_INVOCATION); cbn [negb];
      (split; [intros H|intros H]); try discriminate; [reflexivity|eexists; reflexivity].
  - destruct (truthy _); split; try reflexivity; discriminate.
  - rewrite <- ok_invocation0. destruct (smem _ _); (split; [intros H|intros H]); try discriminate;
      [reflexivity|eexists; reflexivity].
Qed.

Ltac recv_simple I r' :=
  constructor; fields; unfold_spec_def; intros; unfold_spec; auto using NoDup_srem;
  rewrite ?smem_srem by (apply I); rewrite ?(Z.eqb_sym _ r'); auto.

(** Closing a request table that has [r]. *)
Lemma srem_close s' q x (p : bool) : NoDup s' -> smem q s' = p ->
  smem q (srem x s') = if x =? q then false else p.
Proof.
  intros Hn <-. rewrite smem_srem by exact Hn. rewrite (Z.eqb_sym q). destruct (x =? q); reflexivity.
Qed.
Lemma smem_close s' q x (p : bool) : smem x s' = false -> smem q s' = p ->
  smem q s' = if x =? q then false else p.
Proof. intros H <-. destruct (Z.eqb_spec x q) as [<-|]; auto. Qed.
Lemma zdel_close (d : list (Z * Z)) q x p : NoDup (map fst d) -> zget q d = p ->
  zget q (zdel x d) = if x =? q then None else p.
Proof. intros Hn <-. rewrite zget_zdel by exact Hn. rewrite (Z.eqb_sym q). reflexivity. Qed.
Lemma zget_close (d : list (Z * Z)) q x p : zget x d = None -> zget q d = p ->
  zget q d = if x =? q then None else p.
Proof. intros H <-. destruct (Z.eqb_spec x q) as [<-|]; auto. Qed.
Lemma sadd_open s' q x (p : bool) : smem q s' = p -> smem q (sadd x s') = if x =? q then true else p.
Proof. intros <-. rewrite smem_sadd, (Z.eqb_sym q). destruct (x =? q); reflexivity. Qed.

#[local] Hint Resolve NoDup_srem NoDup_sadd srem_close smem_close zdel_close zget_close sadd_open : sess.
Lemma NoDup_zdel k (d : list (Z * Z)) : NoDup (map fst d) -> NoDup (map fst (zdel k d)).
Proof. apply NoDup_ddel. Qed.
#[local] Hint Resolve NoDup_zdel : sess.

(** The spec functions skip an entry that is about something else. *)
Lemma Inv_receive s h m : Inv s h ->
  let '(s', r) := receive_message s m in
  Inv s' ((Rcv m, took r) :: h) /\ took r = acceptable h (Rcv m) /\
  (took r = true -> r = Ok m) /\ (took r = false -> exists e, r = Raise (ValueError [e])).
Proof.
  intros I. pose proof I as I0. destruct I0.
  destruct m as [m|m|m|m|m|m|m|m|m|m|m|m|m|m|m|m|m|m|m|m|m|m|m|m]; cbn [receive_message acceptable];
    try (split; [|split; [reflexivity|split; [intros; try discriminate; reflexivity
                                             |intros; try discriminate; eexists; reflexivity]]];
         constructor; fields; unfold_spec_def; intros; unfold_spec; auto; fail).
  - (* Error *)
    unfold receive_error.
    destruct (Z.eqb_spec (pyint_Z (er_type m)) T_CALL) as [E|N1];
      [|destruct (Z.eqb_spec (pyint_Z (er_type m)) T_REGISTER) as [E|N2];
      [|destruct (Z.eqb_spec (pyint_Z (er_type m)) T_UNREGISTER) as [E|N3];
      [|destruct (Z.eqb_spec (pyint_Z (er_type m)) T_SUBSCRIBE) as [E|N4];
      [|destruct (Z.eqb_spec (pyint_Z (er_type m)) T_UNSUBSCRIBE) as [E|N5];
      [|destruct (Z.eqb_spec (pyint_Z (er_type m)) T_PUBLISH) as [E|N6]]]]]];
      rewrite ?zmem_get, <- ?ok_call0, <- ?ok_register0, <- ?ok_unregister0, <- ?ok_subscribe0, <- ?ok_unsubscribe0,
        <- ?ok_publish0;
      [destruct (smem _ _) eqn:M|destruct (smem _ _) eqn:M|destruct (zget _ _) eqn:M|destruct (smem _ _) eqn:M
      |destruct (zget _ _) eqn:M|destruct (smem _ _) eqn:M|];
      cbn [open took value_error]; (split; [|split; [reflexivity|split; [intros; try discriminate; reflexivity
                                             |intros; try discriminate; eexists; reflexivity]]]);
      (constructor; fields; unfold_spec_def; intros; unfold_spec;
         rewrite ?E, ?(proj2 (Z.eqb_neq _ _) N1), ?(proj2 (Z.eqb_neq _ _) N2), ?(proj2 (Z.eqb_neq _ _) N3),
           ?(proj2 (Z.eqb_neq _ _) N4), ?(proj2 (Z.eqb_neq _ _) N5), ?(proj2 (Z.eqb_neq _ _) N6);
         cbn [andb Z.eqb T_CALL T_REGISTER T_UNREGISTER T_SUBSCRIBE T_UNSUBSCRIBE T_PUBLISH Pos.eqb];
         auto with sess).
  - (* Published *)
    rewrite <- ok_publish0. destruct (smem _ _) eqn:M; cbn [took value_error];
      (split; [|split; [reflexivity|split; [intros; try discriminate; reflexivity
                                             |intros; try discriminate; eexists; reflexivity]]]);
      (constructor; fields; unfold_spec_def; intros; unfold_spec; auto with sess).
  - (* Subscribed *)
    rewrite <- ok_subscribe0. destruct (smem _ _) eqn:M; cbn [took value_error];
      (split; [|split; [reflexivity|split; [intros; try discriminate; reflexivity
                                             |intros; try discriminate; eexists; reflexivity]]]);
      (constructor; fields; unfold_spec_def; intros; unfold_spec; auto with sess).
  - (* Unsubscribed *)
    rewrite <- ok_unsubscribe0. destruct (zget _ _) as [g|] eqn:M; fields; [destruct (smem _ _) eqn:M2|];
      rewrite <- ?ok_subscriptions0, ?M2; cbn [took value_error];
      (split; [|split; [reflexivity|split; [intros; try discriminate; reflexivity
                                             |intros; try discriminate; eexists; reflexivity]]]);
      (constructor; fields; unfold_spec_def; intros; unfold_spec; rewrite <- ?ok_unsubscribe0, ?M; auto with sess).
  - (* Event *)
    rewrite <- ok_subscriptions0. destruct (smem _ _) eqn:M; cbn [took value_error];
      (split; [|split; [reflexivity|split; [intros; try discriminate; reflexivity
                                             |intros; try discriminate; eexists; reflexivity]]]);
      (constructor; fields; unfold_spec_def; intros; unfold_spec; auto with sess).
  - (* Result *)
    rewrite <- ok_call0. destruct (smem _ _) eqn:M; cbn [took value_error];
      (split; [|split; [reflexivity|split; [intros; try discriminate; reflexivity
                                             |intros; try discriminate; eexists; reflexivity]]]);
      (constructor; fields; unfold_spec_def; intros; unfold_spec; auto with sess).
  - (* Registered *)
    rewrite <- ok_register0. destruct (smem _ _) eqn:M; cbn [took value_error];
      (split; [|split; [reflexivity|split; [intros; try discriminate; reflexivity
                                             |intros; try discriminate; eexists; reflexivity]]]);
      (constructor; fields; unfold_spec_def; intros; unfold_spec; auto with sess).
  - (* Unregistered *)
    rewrite <- ok_unregister0. destruct (zget _ _) as [g|] eqn:M; fields; [destruct (smem _ _) eqn:M2|];
      rewrite <- ?ok_registrations0, ?M2; cbn [took value_error];
      (split; [|split; [reflexivity|split; [intros; try discriminate; reflexivity
                                             |intros; try discriminate; eexists; reflexivity]]]);
      (constructor; fields; unfold_spec_def; intros; unfold_spec; rewrite <- ?ok_unregister0, ?M; auto with sess).
  - (* Invocation *)
    rewrite <- ok_registrations0. destruct (smem _ _) eqn:M; cbn [took value_error];
      (split; [|split; [reflexivity|split; [intros; try discriminate; reflexivity
                                             |intros; try discriminate; eexists; reflexivity]]]);
      (constructor; fields; unfold_spec_def; intros; unfold_spec; auto with sess).
Qed.

Lemma fst_send c s m : fst (send_message c s m) = fst (send_track s m).
Proof. unfold send_message. destruct (send_track s m). reflexivity. Qed.

Lemma Inv_step c s h o : Inv s h -> Inv (fst (step c s o)) ((o, snd (step c s o)) :: h).
Proof.
  intros I. destruct o as [m|m]; cbn [step].
  - pose proof (Inv_send s h m (took (snd (send_message c s m))) I) as H. rewrite <- (fst_send c) in H.
    destruct (send_message c s m) as [s' r]. exact H.
  - pose proof (Inv_receive s h m I) as H. destruct (receive_message s m) as [s' r]. apply H.
Qed.

Lemma run_snoc c ops o : run c (ops ++ [o]) = step_h c (run c ops) o.
Proof. unfold run. rewrite fold_left_app. reflexivity. Qed.

Lemma Inv_run c ops : Inv (fst (run c ops)) (snd (run c ops)).
Proof.
  induction ops as [|o ops IH] using rev_ind; [exact Inv_init|].
  rewrite run_snoc. unfold step_h. pose proof (Inv_step c _ _ o IH) as H.
  destruct (step c (fst (run c ops)) o) as [s' b]. exact H.
Qed.


Lemma receive_decided c ops m :
  let s := fst (run c ops) in let h := snd (run c ops) in
  (acceptable h (Rcv m) = true -> receives s m = Ok m) /\
  (acceptable h (Rcv m) = false -> exists e, receives s m = Raise (ValueError [e])).
Proof.
  cbv zeta. unfold receives. pose proof (Inv_receive _ _ m (Inv_run c ops)) as H.
  destruct (receive_message (fst (run c ops)) m) as [s' r]. destruct H as (_ & <- & H1 & H2). split; assumption.
Qed.

Lemma receive_iff c ops m :
  receives (fst (run c ops)) m = Ok m <-> acceptable (snd (run c ops)) (Rcv m) = true.
Proof.
  destruct (receive_decided c ops m) as [H1 H2]. split; [|exact H1].
  intros H. destruct (acceptable _ _); [reflexivity|]. destruct (H2 eq_refl) as [e He]. congruence.
Qed.

Lemma receive_rejects c ops m :
  receives (fst (run c ops)) m = Ok m \/ exists e, receives (fst (run c ops)) m = Raise (ValueError [e]).
Proof.
  destruct (receive_decided c ops m) as [H1 H2]. destruct (acceptable _ _); auto.
Qed.

Lemma send_decided c ops m :
  let s := fst (run c ops) in let h := snd (run c ops) in
  (acceptable h (Snd m) = true -> sends c s m = serialize c m) /\
  (acceptable h (Snd m) = false -> exists e, send_message c s m = (s, Raise (ValueError [e]))).
Proof.
  cbv zeta. destruct (send_accept _ _ m (Inv_run c ops)) as [H1 H2]. unfold sends, send_message.
  split; intros H.
  - specialize (H1 H). destruct (send_track _ m) as [s' r]. cbn [snd] in *. subst r. reflexivity.
  - destruct (H2 H) as [e He]. rewrite He. exists e. reflexivity.
Qed.

Lemma all_decided c ops m :
  (receives (fst (run c ops)) m = Ok m <-> acceptable (snd (run c ops)) (Rcv m) = true) /\
  (receives (fst (run c ops)) m <> Ok m -> exists e, receives (fst (run c ops)) m = Raise (ValueError [e])).
Proof.
  split; [apply receive_iff|]. destruct (receive_rejects c ops m); tauto.
Qed.

(** ** Counting *)
Lemma run_flag c ops o b h' : snd (run c ops) = (Rcv o, b) :: h' -> b = acceptable h' (Rcv o).
Proof.
  destruct ops as [|x ops] using rev_ind; [discriminate|]. clear IHops.
  rewrite run_snoc. unfold step_h.
  destruct (step c (fst (run c ops)) x) as [s' b'] eqn:E. cbn [snd]. intros H. injection H as -> -> <-.
  cbn [step] in E. pose proof (Inv_receive _ _ o (Inv_run c ops)) as H.
  destruct (receive_message (fst (run c ops)) o) as [s1 r]. injection E as _ <-. apply H.
Qed.

Lemma times_cons {E} p (e : E) h : times p (e :: h) = ((if p e then 1 else 0) + times p h)%nat.
Proof. unfold times. cbn [filter]. destruct (p e); reflexivity. Qed.

(** If every taken answer was acceptable because the request was open, answers never outnumber requests. *)
Lemma count_since (opens closes : entry -> bool) h :
  (forall h1 e h2, h = h1 ++ e :: h2 -> closes e = true -> snd e = true -> since opens closes h2 = true) ->
  (forall e, opens e = true -> closes e = false) ->
  (times (taken closes) h + (if since opens closes h then 1 else 0) <= times opens h)%nat.
Proof.
  intros Hc Hd. induction h as [|e h IH]; [cbn; lia|].
  assert (IH' : (times (taken closes) h + (if since opens closes h then 1 else 0) <= times opens h)%nat).
  { apply IH. intros h1 e' h2 E. apply (Hc (e :: h1)). rewrite E. reflexivity. }
  rewrite !times_cons. cbn [since]. unfold taken at 1. specialize (Hc [] e h eq_refl). specialize (Hd e).
  destruct (opens e); [rewrite (Hd eq_refl); cbn [andb]; destruct (since opens closes h); lia|].
  destruct (closes e); cbn [andb]; [|lia].
  destruct (snd e); [rewrite (Hc eq_refl eq_refl) in IH'; lia|destruct (since opens closes h); lia].
Qed.

Lemma run_suffix c ops h1 h2 : snd (run c ops) = h1 ++ h2 -> exists ops', snd (run c ops') = h2.
Proof.
  revert h1. induction ops as [|o ops IH] using rev_ind; intros h1.
  - cbn. intros H. symmetry in H. apply app_eq_nil in H. destruct H as [_ ->]. exists []. reflexivity.
  - intros H. destruct h1 as [|e h1]; [exists (ops ++ [o]); exact H|].
    rewrite run_snoc in H. unfold step_h in H. destruct (step c (fst (run c ops)) o). cbn in H.
    injection H as _ H. exact (IH _ H).
Qed.

Lemma run_flag_mid c ops h1 m b h2 : snd (run c ops) = h1 ++ (Rcv m, b) :: h2 -> b = acceptable h2 (Rcv m).
Proof. intros H. apply run_suffix in H. destruct H as [ops' H]. exact (run_flag _ _ _ _ _ H). Qed.

Lemma run_flag_snd c ops h1 m b h2 : snd (run c ops) = h1 ++ (Snd m, b) :: h2 ->
  b = true -> acceptable h2 (Snd m) = true.
Proof.
  intros H. apply run_suffix in H. destruct H as [ops' H]. revert H.
  destruct ops' as [|x ops'] using rev_ind; [discriminate|]. clear IHops'.
  rewrite run_snoc. unfold step_h. destruct (send_decided c ops' m) as [_ Hs].
  destruct (step c (fst (run c ops')) x) as [s' b'] eqn:E. cbn [snd]. intros H. injection H as -> -> <-.
  intros ->. cbn [step] in E. destruct (acceptable _ _); [reflexivity|]. destruct (Hs eq_refl) as [e He].
  rewrite He in E. discriminate.
Qed.

Lemma calls_answered_once c ops r :
  (times (taken (answered_call r)) (snd (run c ops)) <= times (sent_call r) (snd (run c ops)))%nat.
Proof.
  enough (H : (times (taken (answered_call r)) (snd (run c ops)) +
          (if since (sent_call r) (answered_call r) (snd (run c ops)) then 1 else 0)
          <= times (sent_call r) (snd (run c ops)))%nat) by lia.
  apply count_since.
  - intros h1 [o b] h2 H Hc Hb. cbn [snd] in Hb. subst b.
    destruct o as [m|m]; destruct m; try discriminate Hc; apply run_flag_mid in H; cbn [acceptable] in H;
      unfold call_open in H.
    + cbn [answered_call rcv_error] in Hc. apply andb_prop in Hc. destruct Hc as [Ht Hr].
      apply Z.eqb_eq in Hr. rewrite Ht in H. rewrite <- Hr. congruence.
    + cbn [answered_call] in Hc. apply Z.eqb_eq in Hc. rewrite <- Hc. congruence.
  - intros [o b] H. destruct o as [m|m]; destruct m; try discriminate H; reflexivity.
Qed.

Lemma publishes_answered_once c ops r :
  (times (taken (answered_publish r)) (snd (run c ops)) <= times (sent_ack_publish r) (snd (run c ops)))%nat.
Proof.
  enough (H : (times (taken (answered_publish r)) (snd (run c ops)) +
          (if since (sent_ack_publish r) (answered_publish r) (snd (run c ops)) then 1 else 0)
          <= times (sent_ack_publish r) (snd (run c ops)))%nat) by lia.
  apply count_since.
  - intros h1 [o b] h2 H Hc Hb. cbn [snd] in Hb. subst b.
    destruct o as [m|m]; destruct m; try discriminate Hc; apply run_flag_mid in H; cbn [acceptable] in H;
      unfold publish_open in H.
    + cbn [answered_publish rcv_error] in Hc. apply andb_prop in Hc. destruct Hc as [Ht Hr].
      apply Z.eqb_eq in Hr. apply Z.eqb_eq in Ht. rewrite Ht in H. cbn in H. rewrite <- Hr. congruence.
    + cbn [answered_publish] in Hc. apply Z.eqb_eq in Hc. rewrite <- Hc. congruence.
  - intros [o b] H. destruct o as [m|m]; destruct m; try discriminate H; reflexivity.
Qed.


Lemma yields_once c ops r :
  (times (taken (sent_yield r)) (snd (run c ops)) <= times (got_invocation r) (snd (run c ops)))%nat.
Proof.
  assert (H : forall h, (exists h0 ops, snd (run c ops) = h0 ++ h) ->
     (times (taken (sent_yield r)) h +
          (if since (got_invocation r) (finished_invocation r) h then 1 else 0)
          <= times (got_invocation r) h)%nat).
  { induction h as [|e h IH]; intros (h0 & ops' & E); [cbn; lia|].
    assert (IH' := IH (ex_intro _ (h0 ++ [e]) (ex_intro _ ops' (eq_trans E (app_assoc h0 [e] h))))). clear IH.
    rewrite !times_cons. cbn [since]. unfold taken at 1.
    destruct (sent_yield r e && snd e) eqn:Y.
    - apply andb_prop in Y. destruct Y as [Y B]. destruct e as [[m|m] b]; destruct m; try discriminate Y.
      cbn [snd] in B. subst b. pose proof (run_flag_snd _ _ _ _ _ _ E eq_refl) as A.
      cbn [acceptable] in A. unfold invocation_open in A. cbn [sent_yield] in Y.
      pose proof Y as Y'. apply Z.eqb_eq in Y'. rewrite Y' in A. rewrite A in IH'.
      cbn [got_invocation finished_invocation]. rewrite Y. lia.
    - destruct (got_invocation r e); [destruct (since _ _ h); lia|].
      destruct (finished_invocation r e); destruct (since _ _ h); lia. }
  specialize (H (snd (run c ops)) (ex_intro _ [] (ex_intro _ ops eq_refl))). lia.
Qed.

(** ** Rejected messages (C26) *)
Lemma rejected_receive s m e : snd (receive_message s m) = Raise e ->
  fst (receive_message s m) = s \/
  (exists u g, m = Unregistered u /\ zget (pyint_Z (un_request u)) (unregister_requests s) = Some g /\
     smem g (registrations s) = false /\
     fst (receive_message s m) =
       set_unregister_requests s (zdel (pyint_Z (un_request u)) (unregister_requests s))) \/
  (exists u g, m = Unsubscribed u /\ zget (pyint_Z (ud_request u)) (unsubscribe_requests s) = Some g /\
     smem g (subscriptions s) = false /\
     fst (receive_message s m) =
       set_unsubscribe_requests s (zdel (pyint_Z (ud_request u)) (unsubscribe_requests s))).
Proof.
  destruct m as [m|m|m|m|m|m|m|m|m|m|m|m|m|m|m|m|m|m|m|m|m|m|m|m]; cbn [receive_message]; try (left; reflexivity);
    try (destruct (smem _ _); [discriminate|left; reflexivity]).
  - unfold receive_error. intros H. left. revert H.
    repeat match goal with |- context [if ?b then _ else _] => destruct b end; cbn [fst snd]; try reflexivity; discriminate.
  - destruct (zget _ _) as [g|] eqn:G; [|left; reflexivity]. fields. destruct (smem _ _) eqn:M; [discriminate|].
    intros _. right. right. exists m, g. auto.
  - destruct (zget _ _) as [g|] eqn:G; [|left; reflexivity]. fields. destruct (smem _ _) eqn:M; [discriminate|].
    intros _. right. left. exists m, g. auto.
Qed.

Lemma rejected_receive_run c ops m e : receives (fst (run c ops)) m = Raise e ->
  names_ended_target (snd (run c ops)) m = false -> receive_message (fst (run c ops)) m = (fst (run c ops), Raise e).
Proof.
  intros H N. unfold receives in H. pose proof (Inv_run c ops) as I. destruct I.
  pose proof (rejected_receive _ _ _ H) as R.
  destruct (receive_message (fst (run c ops)) m) as [s' r] eqn:E. cbn [fst snd] in *. subst r.
  destruct R as [R|[(u & g & -> & G & M & _)|(u & g & -> & G & M & _)]]; [congruence| |];
    cbn [names_ended_target] in N.
  - rewrite <- ok_unregister0, G, <- ok_registrations0, M in N. discriminate.
  - rewrite <- ok_unsubscribe0, G, <- ok_subscriptions0, M in N. discriminate.
Qed.

(** ** Independence of request kinds (C28) *)
Definition agree (D : kind -> bool) (s t : session) : Prop :=
  (D KCall = true -> call_requests s = call_requests t) /\
  (D KPublish = true -> publish_requests s = publish_requests t) /\
  (D KRegister = true -> register_requests s = register_requests t) /\
  (D KUnregister = true -> unregister_requests s = unregister_requests t) /\
  (D KRegister = true -> D KUnregister = true -> registrations s = registrations t) /\
  (D KRegister = true -> D KUnregister = true -> D KInvocation = true -> invocation_requests s = invocation_requests t) /\
  (D KSubscribe = true -> subscribe_requests s = subscribe_requests t) /\
  (D KUnsubscribe = true -> unsubscribe_requests s = unsubscribe_requests t) /\
  (D KSubscribe = true -> D KUnsubscribe = true -> subscriptions s = subscriptions t).

Lemma agree_refl D s : agree D s s.
Proof. repeat split; reflexivity. Qed.

Definition new_state (s : session) (o : op) : session :=
  match o with Snd m => fst (send_track s m) | Rcv m => fst (receive_message s m) end.

Lemma step_new_state c s o : fst (step c s o) = new_state s o.
Proof.
  destruct o as [m|m]; cbn [step new_state].
  - rewrite <- (fst_send c). destruct (send_message c s m). reflexivity.
  - destruct (receive_message s m). reflexivity.
Qed.

(** Sets as seen through a projection: rewrite [t] into [s] where they agree. *)
Ltac use_agree A :=
  let H1 := fresh in let H2 := fresh in let H3 := fresh in let H4 := fresh in let H5 := fresh in
  let H6 := fresh in let H7 := fresh in let H8 := fresh in let H9 := fresh in
  destruct A as (H1 & H2 & H3 & H4 & H5 & H6 & H7 & H8 & H9).

Lemma agree_outside D s t o : agree D s t -> D (op_kind o) = false -> agree D (new_state s o) t.
Proof.
  intros A N.
  destruct o as [m|m]; destruct m as [m|m|m|m|m|m|m|m|m|m|m|m|m|m|m|m|m|m|m|m|m|m|m|m];
    cbn [new_state send_track receive_message fst op_kind] in *; try exact A.
  all: try (use_agree A; repeat match goal with |- context [if ?b then _ else _] => destruct b end; fields;
    repeat split; fields; intros; try congruence; auto; fail).
  - destruct (pyint_Z (er_type m) =? T_INVOCATION); cbn [negb fst]; [|exact A].
    use_agree A; repeat split; fields; intros; try congruence; auto.
  - unfold receive_error. unfold error_kind in N.
    destruct (pyint_Z (er_type m) =? T_CALL); [|destruct (pyint_Z (er_type m) =? T_REGISTER) eqn:E2;
      [|destruct (pyint_Z (er_type m) =? T_UNREGISTER) eqn:E3;
      [|destruct (pyint_Z (er_type m) =? T_SUBSCRIBE) eqn:E4;
      [|destruct (pyint_Z (er_type m) =? T_UNSUBSCRIBE) eqn:E5;
      [|destruct (pyint_Z (er_type m) =? T_PUBLISH) eqn:E6]]]]];
      try (apply Z.eqb_eq in E2; rewrite E2 in N); try (apply Z.eqb_eq in E3; rewrite E3 in N);
      try (apply Z.eqb_eq in E4; rewrite E4 in N); try (apply Z.eqb_eq in E5; rewrite E5 in N);
      cbn [Z.eqb T_CALL T_REGISTER T_UNREGISTER T_SUBSCRIBE T_UNSUBSCRIBE T_PUBLISH Pos.eqb] in N;
      try exact A;
      match goal with |- context [if ?b then _ else _] => destruct b end; fields; try exact A;
      use_agree A; repeat split; fields; intros; try congruence; auto.
  - destruct (zget _ _); [|exact A]. fields. destruct (smem _ _); fields;
      use_agree A; repeat split; fields; intros; try congruence; auto.
  - destruct (zget _ _); [|exact A]. fields. destruct (smem _ _); fields;
      use_agree A; repeat split; fields; intros; try congruence; auto.
Qed.

Ltac agree_close := repeat split; fields; intros; auto;
  repeat match goal with
  | H : ?a = true -> _, H' : ?a = true |- _ => specialize (H H')
  end;
  repeat match goal with
  | H : ?x _ = ?x _ |- _ => progress rewrite ?H in *
  end; auto; try congruence.

Lemma agree_inside D s t o : agree D s t -> D (op_kind o) = true -> agree D (new_state s o) (new_state t o).
Proof.
  intros A N.
  destruct o as [m|m]; destruct m as [m|m|m|m|m|m|m|m|m|m|m|m|m|m|m|m|m|m|m|m|m|m|m|m];
    cbn [new_state send_track receive_message fst op_kind] in *; try exact A.
  - destruct (pyint_Z (er_type m) =? T_INVOCATION); cbn [negb fst]; [|exact A].
    use_agree A; agree_close.
  - destruct (truthy _); cbn [fst]; [|exact A]. use_agree A; agree_close.
  - use_agree A; agree_close.
  - use_agree A; agree_close.
  - use_agree A; agree_close.
  - use_agree A; agree_close.
  - use_agree A; agree_close.
  - (* Yield *)
    use_agree A. destruct (D KRegister && D KUnregister) eqn:DD.
    + apply andb_prop in DD. destruct DD as [D1 D2]. rewrite H4 by assumption.
      destruct (smem _ _); cbn [fst]; agree_close.
    + assert (Hno : D KRegister = true -> D KUnregister = true -> False).
      { intros X Y. rewrite X, Y in DD. discriminate. }
      destruct (smem _ (invocation_requests s)); destruct (smem _ (invocation_requests t)); cbn [fst];
        repeat split; fields; intros; auto; exfalso; auto.
  - (* Error *)
    unfold receive_error. unfold error_kind in N.
    destruct (pyint_Z (er_type m) =? T_CALL); [|destruct (pyint_Z (er_type m) =? T_REGISTER) eqn:E2;
      [|destruct (pyint_Z (er_type m) =? T_UNREGISTER) eqn:E3;
      [|destruct (pyint_Z (er_type m) =? T_SUBSCRIBE) eqn:E4;
      [|destruct (pyint_Z (er_type m) =? T_UNSUBSCRIBE) eqn:E5;
      [|destruct (pyint_Z (er_type m) =? T_PUBLISH) eqn:E6]]]]];
      try (apply Z.eqb_eq in E2; rewrite E2 in N); try (apply Z.eqb_eq in E3; rewrite E3 in N);
      try (apply Z.eqb_eq in E4; rewrite E4 in N); try (apply Z.eqb_eq in E5; rewrite E5 in N);
      cbn [Z.eqb T_CALL T_REGISTER T_UNREGISTER T_SUBSCRIBE T_UNSUBSCRIBE T_PUBLISH Pos.eqb] in N;
      use_agree A;
      [rewrite (H N)|rewrite (H1 N)|rewrite (H2 N)|rewrite (H5 N)|rewrite (H6 N)|rewrite (H0 N)|];
      try match goal with |- context [if ?b then _ else _] => destruct b end; cbn [fst]; agree_close.
  - (* Published *) use_agree A. rewrite (H0 N). destruct (smem _ _); cbn [fst]; agree_close.
  - (* Subscribed *) use_agree A. rewrite (H5 N). destruct (smem _ _); cbn [fst]; fields; agree_close.
  - (* Unsubscribed *)
    use_agree A. rewrite (H6 N). destruct (zget _ _) as [g|]; [|agree_close]. fields.
    destruct (D KSubscribe) eqn:D1.
    + rewrite (H7 eq_refl N). destruct (smem _ _); cbn [fst]; fields; agree_close.
    + destruct (smem _ (subscriptions s)); destruct (smem _ (subscriptions t)); cbn [fst]; fields;
        repeat split; fields; intros; auto; try congruence.
  - (* Event *) destruct (smem _ (subscriptions s)); destruct (smem _ (subscriptions t)); exact A.
  - (* Result *) use_agree A. rewrite (H N). destruct (smem _ _); cbn [fst]; agree_close.
  - (* Registered *) use_agree A. rewrite (H1 N). destruct (smem _ _); cbn [fst]; fields; agree_close.
  - (* Unregistered *)
    use_agree A. rewrite (H2 N). destruct (zget _ _) as [g|]; [|agree_close]. fields.
    destruct (D KRegister) eqn:D1.
    + rewrite (H3 eq_refl N). destruct (smem _ _); cbn [fst]; fields; agree_close.
    + destruct (smem _ (registrations s)); destruct (smem _ (registrations t)); cbn [fst]; fields;
        repeat split; fields; intros; auto; try congruence.
  - (* Invocation *)
    use_agree A. destruct (D KRegister && D KUnregister) eqn:DD.
    + apply andb_prop in DD. destruct DD as [D1 D2]. rewrite H3 by assumption.
      destruct (smem _ _); cbn [fst]; agree_close.
    + assert (Hno : D KRegister = true -> D KUnregister = true -> False).
      { intros X Y. rewrite X, Y in DD. discriminate. }
      destruct (smem _ (registrations s)); destruct (smem _ (registrations t)); cbn [fst];
        repeat split; fields; intros; auto; exfalso; auto.
Qed.

Lemma agree_filter c D ops :
  agree D (fst (run c ops)) (fst (run c (filter (fun o => D (op_kind o)) ops))).
Proof.
  induction ops as [|o ops IH] using rev_ind; [apply agree_refl|].
  rewrite filter_app, run_snoc. cbn [filter]. unfold step_h.
  destruct (step c (fst (run c ops)) o) as [s' b] eqn:E. cbn [fst].
  pose proof (step_new_state c (fst (run c ops)) o) as Hs. rewrite E in Hs. cbn [fst] in Hs. subst s'.
  destruct (D (op_kind o)) eqn:K.
  - rewrite run_snoc. unfold step_h. pose proof (step_new_state c (fst (run c (filter (fun o => D (op_kind o)) ops))) o) as Ht.
    destruct (step c (fst (run c (filter (fun o0 => D (op_kind o0)) ops))) o) as [t' b']. cbn [fst] in *. subst t'.
    apply agree_inside; assumption.
  - rewrite app_nil_r. apply agree_outside; assumption.
Qed.

Lemma agree_receive D s t m : agree D s t -> forallb D (may_depend_on (Rcv m)) = true ->
  receives s m = receives t m.
Proof.
  intros A N. unfold receives.
  destruct m as [m|m|m|m|m|m|m|m|m|m|m|m|m|m|m|m|m|m|m|m|m|m|m|m];
    cbn [receive_message may_depend_on op_kind forallb] in *; try reflexivity; rewrite ?andb_true_r in N.
  - unfold receive_error. unfold error_kind in N.
    destruct (pyint_Z (er_type m) =? T_CALL); [|destruct (pyint_Z (er_type m) =? T_REGISTER) eqn:E2;
      [|destruct (pyint_Z (er_type m) =? T_UNREGISTER) eqn:E3;
      [|destruct (pyint_Z (er_type m) =? T_SUBSCRIBE) eqn:E4;
      [|destruct (pyint_Z (er_type m) =? T_UNSUBSCRIBE) eqn:E5;
      [|destruct (pyint_Z (er_type m) =? T_PUBLISH) eqn:E6]]]]];
      try (apply Z.eqb_eq in E2; rewrite E2 in N); try (apply Z.eqb_eq in E3; rewrite E3 in N);
      try (apply Z.eqb_eq in E4; rewrite E4 in N); try (apply Z.eqb_eq in E5; rewrite E5 in N);
      cbn [Z.eqb T_CALL T_REGISTER T_UNREGISTER T_SUBSCRIBE T_UNSUBSCRIBE T_PUBLISH Pos.eqb] in N;
      use_agree A;
      [rewrite (H N)|rewrite (H1 N)|rewrite (H2 N)|rewrite (H5 N)|rewrite (H6 N)|rewrite (H0 N)|];
      try match goal with |- context [if ?b then _ else _] => destruct b end; reflexivity.
  - use_agree A. rewrite (H0 N). destruct (smem _ _); reflexivity.
  - use_agree A. rewrite (H5 N). destruct (smem _ _); reflexivity.
  - apply andb_prop in N. destruct N as [N1 N2]. use_agree A. rewrite (H6 N2). destruct (zget _ _); [|reflexivity].
    fields. rewrite (H7 N1 N2). destruct (smem _ _); reflexivity.
  - apply andb_prop in N. destruct N as [N1 N2]. use_agree A. rewrite (H7 N1 N2). destruct (smem _ _); reflexivity.
  - use_agree A. rewrite (H N). destruct (smem _ _); reflexivity.
  - use_agree A. rewrite (H1 N). destruct (smem _ _); reflexivity.
  - apply andb_prop in N. destruct N as [N1 N2]. use_agree A. rewrite (H2 N2). destruct (zget _ _); [|reflexivity].
    fields. rewrite (H3 N1 N2). destruct (smem _ _); reflexivity.
  - apply andb_prop in N. destruct N as [N1 N2]. use_agree A. rewrite (H3 N1 N2). destruct (smem _ _); reflexivity.
Qed.

Lemma agree_send c D s t m : agree D s t -> forallb D (may_depend_on (Snd m)) = true ->
  sends c s m = sends c t m.
Proof.
  intros A N. unfold sends, send_message.
  destruct m as [m|m|m|m|m|m|m|m|m|m|m|m|m|m|m|m|m|m|m|m|m|m|m|m];
    cbn [send_track may_depend_on op_kind forallb] in *; try reflexivity; rewrite ?andb_true_r in N.
  - destruct (negb _); reflexivity.
  - destruct (truthy _); reflexivity.
  - apply andb_prop in N. destruct N as [N1 N2]. apply andb_prop in N2. destruct N2 as [N2 N3].
    use_agree A. rewrite (H4 N1 N2 N3). destruct (smem _ _); reflexivity.
Qed.

Lemma kinds_independent c D ops m :
  let ops' := filter (fun o => D (op_kind o)) ops in
  (forallb D (may_depend_on (Rcv m)) = true -> receives (fst (run c ops)) m = receives (fst (run c ops')) m) /\
  (forallb D (may_depend_on (Snd m)) = true -> sends c (fst (run c ops)) m = sends c (fst (run c ops')) m).
Proof.
  cbv zeta. split; intros H; [eapply agree_receive|eapply agree_send]; eauto using agree_filter.
Qed.

(** ** Bytes (C29) *)

Lemma send_returns c s m b : sends c s m = Ok b -> serialize c m = Ok b.
Proof.
  unfold sends, send_message. destruct (send_track s m) as [s' [[]|e]]; cbn; [auto|discriminate].
Qed.

Lemma receive_decodes c s m : wf_message m -> codec_round_trips c (VList (marshal m)) ->
  exists b, serialize c m = Ok b /\ receive c s b = receive_message s (normalise m) /\
            fst (receive_message s (normalise m)) = fst (receive_message s m) /\
            took (snd (receive_message s (normalise m))) = took (snd (receive_message s m)).
Proof.
  intros Hwf Hc. destruct (serializer_round_trip c m Hwf Hc) as (b & Hs & Hd).
  exists b. split; [exact Hs|]. unfold receive. rewrite Hd. split; [reflexivity|].
  destruct m; cbn [receive_message normalise]; unfold receive_error;
    cbn [fst snd re_request rd_request rd_registration un_request iv_request iv_registration pd_request sd_request
         sd_subscription ud_request ev_subscription er_type er_request]; try (split; reflexivity);
    repeat match goal with |- context [if ?b then _ else _] => destruct b end; try (split; reflexivity).
Qed.

Lemma receive_undecodable c s data e : deserialize c data = Raise e -> receive c s data = (s, Raise e).
Proof. intros H. unfold receive. rewrite H. reflexivity. Qed.

(** ** Readable instances *)
Lemma call_error_iff c ops m : pyint_Z (er_type m) = T_CALL ->
  (receives (fst (run c ops)) (Error m) = Ok (Error m) <->
   call_open (pyint_Z (er_request m)) (snd (run c ops)) = true).
Proof. intros H. rewrite receive_iff. cbn [acceptable]. rewrite H. reflexivity. Qed.
Lemma publish_error_iff c ops m : pyint_Z (er_type m) = T_PUBLISH ->
  (receives (fst (run c ops)) (Error m) = Ok (Error m) <->
   publish_open (pyint_Z (er_request m)) (snd (run c ops)) = true).
Proof. intros H. rewrite receive_iff. cbn [acceptable]. rewrite H. reflexivity. Qed.
Lemma open_iff {A} (o : option A) : open o = true <-> exists g, o = Some g.
Proof. destruct o; cbn; split; intros H; eauto; try discriminate. destruct H; discriminate. Qed.
Lemma reg_errors_iff c ops m :
  (pyint_Z (er_type m) = T_REGISTER ->
   (receives (fst (run c ops)) (Error m) = Ok (Error m) <->
    register_open (pyint_Z (er_request m)) (snd (run c ops)) = true)) /\
  (pyint_Z (er_type m) = T_UNREGISTER ->
   (receives (fst (run c ops)) (Error m) = Ok (Error m) <->
    exists g, unregister_target (pyint_Z (er_request m)) (snd (run c ops)) = Some g)).
Proof.
  split; intros H; rewrite receive_iff; cbn [acceptable]; rewrite H; [reflexivity|]. apply open_iff.
Qed.
Lemma sub_errors_iff c ops m :
  (pyint_Z (er_type m) = T_SUBSCRIBE ->
   (receives (fst (run c ops)) (Error m) = Ok (Error m) <->
    subscribe_open (pyint_Z (er_request m)) (snd (run c ops)) = true)) /\
  (pyint_Z (er_type m) = T_UNSUBSCRIBE ->
   (receives (fst (run c ops)) (Error m) = Ok (Error m) <->
    exists g, unsubscribe_target (pyint_Z (er_request m)) (snd (run c ops)) = Some g)).
Proof.
  split; intros H; rewrite receive_iff; cbn [acceptable]; rewrite H; [reflexivity|]. apply open_iff.
Qed.
Lemma unregistered_iff c ops m :
  receives (fst (run c ops)) (Unregistered m) = Ok (Unregistered m) <->
  exists g, unregister_target (pyint_Z (un_request m)) (snd (run c ops)) = Some g /\
            registered_now g (snd (run c ops)) = true.
Proof.
  rewrite receive_iff. cbn [acceptable]. destruct (unregister_target _ _) as [g|].
  - split; [eauto|]. intros (g' & H & R). injection H as ->. exact R.
  - split; [discriminate|]. intros (g' & H & R). discriminate.
Qed.
Lemma unsubscribed_iff c ops m :
  receives (fst (run c ops)) (Unsubscribed m) = Ok (Unsubscribed m) <->
  exists g, unsubscribe_target (pyint_Z (ud_request m)) (snd (run c ops)) = Some g /\
            subscribed_now g (snd (run c ops)) = true.
Proof.
  rewrite receive_iff. cbn [acceptable]. destruct (unsubscribe_target _ _) as [g|].
  - split; [eauto|]. intros (g' & H & R). injection H as ->. exact R.
  - split; [discriminate|]. intros (g' & H & R). discriminate.
Qed.

Lemma failed_send_leaves_request c m e : serialize c (Call m) = Raise e ->
  sends c session_init (Call m) = Raise e /\
  exists r, receives (fst (run c [])) r <> Ok r /\ receives (fst (run c [Snd (Call m)])) r = Ok r.
Proof.
  intros H. split; [exact H|].
  exists (Result (mkResult (ca_request m) None None [] no_payload)). split; [discriminate|].
  apply receive_iff. unfold run. cbn [fold_left]. unfold step_h. cbn [step fst].
  destruct (send_message _ _ _). cbn [snd acceptable]. unfold call_open. cbn [since sent_call re_request].
  rewrite Z.eqb_refl. reflexivity.
Qed.

Lemma snd_run_snoc c ops o : exists b, snd (run c (ops ++ [o])) = (o, b) :: snd (run c ops).
Proof.
  rewrite run_snoc. unfold step_h. destruct (step c (fst (run c ops)) o) as [s b]. exists b. reflexivity.
Qed.

Lemma first_result c ops m res1 res2 :
  pyint_Z (re_request res1) = pyint_Z (ca_request m) -> pyint_Z (re_request res2) = pyint_Z (ca_request m) ->
  receives (fst (run c (ops ++ [Snd (Call m)]))) (Result res1) = Ok (Result res1) /\
  receives (fst (run c (ops ++ [Snd (Call m); Rcv (Result res1)]))) (Result res2) <> Ok (Result res2).
Proof.
  intros H1 H2. split.
  - apply receive_iff. cbn [acceptable]. destruct (snd_run_snoc c ops (Snd (Call m))) as [b ->].
    unfold call_open. cbn [since sent_call]. rewrite H1, Z.eqb_refl. reflexivity.
  - rewrite receive_iff. replace (ops ++ [Snd (Call m); Rcv (Result res1)]) with
      ((ops ++ [Snd (Call m)]) ++ [Rcv (Result res1)]) by (rewrite <- app_assoc; reflexivity).
    destruct (snd_run_snoc c (ops ++ [Snd (Call m)]) (Rcv (Result res1))) as [b ->].
    cbn [acceptable]. unfold call_open. cbn [since sent_call answered_call]. rewrite H1, H2, Z.eqb_refl. discriminate.
Qed.
