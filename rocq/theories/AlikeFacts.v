(** * AlikeFacts: a session does the same with messages that differ only in names, payloads and ids (C136). *)
From Coq Require Import String List ZArith Bool Lia.
From Verif Require Import PyBase Messages Serializer Session SpecHistory SpecSession SessionRun SessionFacts SpecAlike.
Import ListNotations.
Local Open Scope Z_scope.

Lemma receive_ok s m x : snd (receive_message s m) = Ok x -> x = m.
Proof.
  destruct m; unfold receive_message, receive_error;
    repeat match goal with |- context [if ?b then _ else _] => destruct b | |- context [match zget ?a ?b with _ => _ end] => destruct (zget a b) end;
    cbn [snd]; intros E; try discriminate E; injection E as <-; reflexivity.
Qed.

Section Ren.
Variable f : space -> Z -> Z.
Hypothesis apart : keeps_apart f.

Lemma f_eqb k x y : (f k x =? f k y) = (x =? y).
Proof. destruct (Z.eqb_spec x y) as [->|N]; [apply Z.eqb_refl|]. apply Z.eqb_neq. intros E. apply N, (apart k), E. Qed.
Lemma smem_ren k x l : smem (f k x) (map (f k) l) = smem x l.
Proof. unfold smem. induction l as [|y l IH]; [reflexivity|]. cbn [map existsb]. rewrite f_eqb, IH. reflexivity. Qed.
Lemma sadd_ren k x l : sadd (f k x) (map (f k) l) = map (f k) (sadd x l).
Proof. unfold sadd. rewrite smem_ren. destruct (smem x l); [reflexivity|]. rewrite map_app. reflexivity. Qed.
Lemma srem_ren k x l : srem (f k x) (map (f k) l) = map (f k) (srem x l).
Proof. induction l as [|y l IH]; [reflexivity|]. cbn [map srem]. rewrite f_eqb, IH. destruct (x =? y); reflexivity. Qed.

Definition pr (k k' : space) (p : Z * Z) : Z * Z := (f k (fst p), f k' (snd p)).
Lemma zget_ren k k' x l : zget (f k x) (map (pr k k') l) = option_map (f k') (zget x l).
Proof. unfold zget. induction l as [|[a b] l IH]; [reflexivity|]. cbn [map dget pr fst snd]. rewrite f_eqb, IH. destruct (x =? a); reflexivity. Qed.
Lemma zset_ren k k' x y l : zset (f k x) (f k' y) (map (pr k k') l) = map (pr k k') (zset x y l).
Proof. unfold zset. induction l as [|[a b] l IH]; [reflexivity|]. cbn [map dset pr fst snd]. rewrite f_eqb, IH. destruct (x =? a); reflexivity. Qed.
Lemma zdel_ren k k' x l : zdel (f k x) (map (pr k k') l) = map (pr k k') (zdel x l).
Proof. unfold zdel. induction l as [|[a b] l IH]; [reflexivity|]. cbn [map ddel pr fst snd]. rewrite f_eqb, IH. destruct (x =? a); reflexivity. Qed.
Lemma zmem_ren k k' x l : zmem (f k x) (map (pr k k') l) = zmem x l.
Proof. unfold zmem, dmem. fold (@zget Z). rewrite zget_ren. destruct (zget x l); reflexivity. Qed.

Definition ren (s : session) : session := mkSession
  (map (f (Request KCall)) (call_requests s)) (map (f (Request KRegister)) (register_requests s)) (map (f Registration) (registrations s))
  (map (f (Request KInvocation)) (invocation_requests s)) (map (pr (Request KUnregister) Registration) (unregister_requests s))
  (map (f (Request KPublish)) (publish_requests s)) (map (f (Request KSubscribe)) (subscribe_requests s)) (map (f Subscription) (subscriptions s))
  (map (pr (Request KUnsubscribe) Subscription) (unsubscribe_requests s)).

Definition agree {A} (x y : session * res A) : Prop := fst y = ren (fst x) /\ took (snd y) = took (snd x).

Ltac fields := cbn [ren call_requests register_requests registrations invocation_requests unregister_requests publish_requests subscribe_requests
  subscriptions unsubscribe_requests set_call_requests set_register_requests set_registrations set_invocation_requests set_unregister_requests
  set_publish_requests set_subscribe_requests set_subscriptions set_unsubscribe_requests fst snd].
Ltac rens := rewrite ?smem_ren, ?sadd_ren, ?srem_ren, ?zget_ren, ?zset_ren, ?zdel_ren, ?zmem_ren.
Ltac fin := unfold agree; fields; rens; split; reflexivity.

Lemma receive_ren s m m' : alike_msg f m m' -> agree (receive_message s m) (receive_message (ren s) m').
Proof.
  unfold alike_msg. destruct m, m'; cbn [shape fst snd map]; intros E; try discriminate E; try (injection E; intros); unfold receive_message;
    try (split; reflexivity).
  - (* ERROR *)
    unfold receive_error. rewrite H1. clear H0 H1 E.
    set (t := pyint_Z (er_type m)) in *. unfold error_kind in *.
    destruct (Z.eqb_spec t T_CALL) as [T|_]; [rewrite T in *; cbn in H; rewrite H; fields; rens; destruct (smem _ _); fin|].
    destruct (Z.eqb_spec t T_REGISTER) as [T|_]; [rewrite T in *; cbn in H; rewrite H; fields; rens; destruct (smem _ _); fin|].
    destruct (Z.eqb_spec t T_UNREGISTER) as [T|_]; [rewrite T in *; cbn in H; rewrite H; fields; rens; destruct (zmem _ _); fin|].
    destruct (Z.eqb_spec t T_SUBSCRIBE) as [T|_]; [rewrite T in *; cbn in H; rewrite H; fields; rens; destruct (smem _ _); fin|].
    destruct (Z.eqb_spec t T_UNSUBSCRIBE) as [T|_]; [rewrite T in *; cbn in H; rewrite H; fields; rens; destruct (zmem _ _); fin|].
    destruct (Z.eqb_spec t T_PUBLISH) as [T|_]; [rewrite T in *; cbn in H; rewrite H; fields; rens; destruct (smem _ _); fin|].
    fin.
  - rewrite H. fields. rens. destruct (smem _ _); fin.
  - rewrite H, H0. fields. rens. destruct (smem _ _); fin.
  - rewrite H. fields. rens. destruct (zget _ _) as [g|]; cbn [option_map]; [|fin]. fields. rens. destruct (smem _ _); fin.
  - rewrite H. fields. rens. destruct (smem _ _); fin.
  - rewrite H. fields. rens. destruct (smem _ _); fin.
  - rewrite H, H0. fields. rens. destruct (smem _ _); fin.
  - rewrite H. fields. rens. destruct (zget _ _) as [g|]; cbn [option_map]; [|fin]. fields. rens. destruct (smem _ _); fin.
  - rewrite H, H0. fields. rens. destruct (smem _ _); fin.
Qed.

Lemma ack_is m : truthy (sget_default "acknowledge" (VBool false) (pb_options m)) =
  match sget "acknowledge" (pb_options m) with Some v => truthy v | None => false end.
Proof. unfold sget_default. destruct (sget _ _); reflexivity. Qed.

Lemma send_ren s m m' : alike_msg f m m' -> agree (send_track s m) (send_track (ren s) m').
Proof.
  unfold alike_msg. destruct m, m'; cbn [shape fst snd map]; intros E; try discriminate E; try (injection E; intros); unfold send_track;
    try (split; reflexivity).
  - rewrite H1. clear H0 H1 E. set (t := pyint_Z (er_type m)) in *. destruct (Z.eqb_spec t T_INVOCATION) as [T|_]; cbn [negb]; [|fin]. rewrite H. fields. rens. fin.
  - rewrite !ack_is, H, H0. destruct (match sget _ (pb_options m) with Some v => _ | None => _ end); fin.
  - rewrite H. fin.
  - rewrite H, H0. fin.
  - rewrite H. fin.
  - rewrite H. fin.
  - rewrite H, H0. fin.
  - rewrite H. fields. rens. destruct (smem _ _); fin.
Qed.

Lemma run_ren c c' ops ops' : Forall2 (alike_op f) ops ops' -> fst (run c' ops') = ren (fst (run c ops)).
Proof.
  unfold run. assert (G : forall s h h', Forall2 (alike_op f) ops ops' ->
    fst (fold_left (step_h c') ops' (ren s, h')) = ren (fst (fold_left (step_h c) ops (s, h)))).
  { intros s h h' F. revert s h h'. induction F as [|o o' ops ops' A _ IH]; intros s h h'; [reflexivity|]. cbn [fold_left].
    unfold step_h at 2 4. cbn [fst snd]. destruct o as [m|m], o' as [m'|m']; cbn [alike_op] in A; try contradiction; unfold step.
    - pose proof (send_ren s m m' A) as [E _]. unfold send_message. destruct (send_track s m) as [s1 r]. destruct (send_track (ren s) m') as [s2 r'].
      cbn [fst] in E. subst s2. apply IH.
    - pose proof (receive_ren s m m' A) as [E _]. destruct (receive_message s m) as [s1 r]. destruct (receive_message (ren s) m') as [s2 r'].
      cbn [fst] in E. subst s2. apply IH. }
  intros F. exact (G session_init [] [] F).
Qed.

Lemma receives_alike c c' ops ops' m m' : Forall2 (alike_op f) ops ops' -> alike_msg f m m' ->
  (receives (fst (run c ops)) m = Ok m <-> receives (fst (run c' ops')) m' = Ok m').
Proof.
  intros F A. rewrite (run_ren c c' ops ops' F). pose proof (receive_ren (fst (run c ops)) m m' A) as [_ T]. unfold receives.
  split; intros E; rewrite E in T; cbn [took] in T.
  - destruct (snd (receive_message (ren _) m')) as [x|x] eqn:R; cbn [took] in T; [|discriminate T]. f_equal. exact (receive_ok _ _ _ R).
  - destruct (snd (receive_message (fst _) m)) as [x|x] eqn:R; cbn [took] in T; [|discriminate T]. f_equal. exact (receive_ok _ _ _ R).
Qed.

Lemma sends_alike c c' ops ops' m m' b b' : Forall2 (alike_op f) ops ops' -> alike_msg f m m' -> serialize c m = Ok b -> serialize c' m' = Ok b' ->
  (sends c (fst (run c ops)) m = Ok b <-> sends c' (fst (run c' ops')) m' = Ok b').
Proof.
  intros F A B B'. rewrite (run_ren c c' ops ops' F). pose proof (send_ren (fst (run c ops)) m m' A) as [_ T]. unfold sends, send_message.
  destruct (send_track (fst (run c ops)) m) as [s1 r]. destruct (send_track (ren _) m') as [s2 r']. cbn [snd] in *.
  destruct r as [[]|x], r' as [[]|y]; cbn [took] in T; try discriminate T; cbn [bind].
  - rewrite B, B'. split; reflexivity.
  - split; discriminate.
Qed.
End Ren.
