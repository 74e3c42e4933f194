(** * ReorderFacts: a send and an arrival that are not about the same request commute (C137). *)
From Coq Require Import String List ZArith Bool Lia Permutation.
From Verif Require Import PyBase Messages Serializer Session SpecHistory SpecSession SessionRun SpecAlike SpecReorder.
Import ListNotations.
Local Open Scope Z_scope.

Section Lists.
Context (x y : Z) (N : x <> y).
Lemma neq : (x =? y) = false. Proof. apply Z.eqb_neq, N. Qed.
Lemma neq' : (y =? x) = false. Proof. apply Z.eqb_neq. auto. Qed.
Lemma smem_app z l l' : smem z (l ++ l') = smem z l || smem z l'. Proof. apply existsb_app. Qed.
Lemma smem_sadd l : smem y (sadd x l) = smem y l.
Proof. unfold sadd. destruct (smem x l); [reflexivity|]. rewrite smem_app. cbn. rewrite neq'. rewrite !orb_false_r. reflexivity. Qed.
Lemma smem_srem l : smem y (srem x l) = smem y l.
Proof.
  induction l as [|z l IH]; [reflexivity|]. cbn [srem]. destruct (Z.eqb_spec x z) as [E|E].
  - subst z. unfold smem. cbn [existsb]. rewrite neq'. reflexivity.
  - unfold smem in *. cbn [existsb]. rewrite IH. reflexivity.
Qed.
Lemma srem_app l : srem y (l ++ [x]) = srem y l ++ [x].
Proof. induction l as [|z l IH]; cbn; [rewrite neq'; reflexivity|]. destruct (y =? z); [reflexivity|]. rewrite IH. reflexivity. Qed.
Lemma zget_zset {V} (v : V) l : zget y (zset x v l) = zget y l.
Proof.
  unfold zget, zset. induction l as [|[a b] l IH]; cbn; [rewrite neq'; reflexivity|]. destruct (Z.eqb_spec x a) as [E|E]; cbn.
  - subst a. rewrite neq'. reflexivity.
  - rewrite IH. reflexivity.
Qed.
Lemma zdel_zset {V} (v : V) l : zdel y (zset x v l) = zset x v (zdel y l).
Proof.
  unfold zdel, zset. induction l as [|[a b] l IH]; cbn; [rewrite neq'; reflexivity|]. destruct (Z.eqb_spec x a) as [E|E]; cbn.
  - subst a. rewrite neq'. cbn. rewrite neq || rewrite Z.eqb_refl. reflexivity.
  - destruct (Z.eqb_spec y a) as [F|F]; cbn; [reflexivity|]. destruct (Z.eqb_spec x a); [contradiction|]. rewrite IH. reflexivity.
Qed.
End Lists.
Lemma srem_sadd x y l : x <> y -> srem y (sadd x l) = sadd x (srem y l).
Proof.
  intros N. unfold sadd. rewrite (smem_srem y x) by auto. destruct (smem x l); [reflexivity|]. apply srem_app, N.
Qed.
Lemma zmem_zset {V} x y (v : V) l : x <> y -> zmem y (zset x v l) = zmem y l.
Proof. intros N. unfold zmem, dmem. fold (@zget V). rewrite zget_zset by exact N. reflexivity. Qed.

Definition commute (s : session) (a b : message) : Prop :=
  fst (receive_message (fst (send_track s a)) b) = fst (send_track (fst (receive_message s b)) a) /\
  snd (receive_message (fst (send_track s a)) b) = snd (receive_message s b) /\
  snd (send_track (fst (receive_message s b)) a) = snd (send_track s a).

Ltac fields := cbn [call_requests register_requests registrations invocation_requests unregister_requests publish_requests subscribe_requests
  subscriptions unsubscribe_requests set_call_requests set_register_requests set_registrations set_invocation_requests set_unregister_requests
  set_publish_requests set_subscribe_requests set_subscriptions set_unsubscribe_requests fst snd].
Ltac split_ifs := repeat (fields; match goal with
  | |- context [if ?b then _ else _] => lazymatch b with context [if _ then _ else _] => fail | _ => destruct b eqn:? end
  | |- context [match zget ?a ?b with _ => _ end] => destruct (zget a b) eqn:? end).
(** Both orders touch different parts of the session, or different ids of the same part. *)
Ltac other N := rewrite ?(smem_sadd _ _ N), ?(smem_srem _ _ N), ?(zget_zset _ _ N), ?(zmem_zset _ _ _ _ N), ?(zdel_zset _ _ N), ?(srem_sadd _ _ _ N).
Ltac run_ifs N := repeat (fields; other N; match goal with
  | |- context [if ?b then _ else _] => lazymatch b with context [if _ then _ else _] => fail | _ => destruct b eqn:? end
  | |- context [match zget ?a ?b with _ => _ end] => destruct (zget a b) eqn:? end); fields; other N.

Lemma distinct (k : kind) (x y : Z) : (forall q, Some (k, x) = Some q -> Some (k, y) <> Some q) -> x <> y.
Proof. intros U ->. exact (U _ eq_refl eq_refl). Qed.

Lemma swap_error s a m : unrelated a (Error m) -> commute s a (Error m).
Proof.
  intros U. unfold commute, receive_message, receive_error. set (t := pyint_Z (er_type m)) in *.
  assert (K : forall k, (if t =? T_INVOCATION then KInvocation else error_kind t) = k -> forall q, request_of a = Some q -> Some (k, pyint_Z (er_request m)) <> Some q).
  { intros k <- q Q. exact (U q Q). }
  unfold error_kind in K.
  destruct (Z.eqb_spec t T_CALL) as [T|_]; [specialize (K KCall ltac:(rewrite T; reflexivity))|
  destruct (Z.eqb_spec t T_REGISTER) as [T|_]; [specialize (K KRegister ltac:(rewrite T; reflexivity))|
  destruct (Z.eqb_spec t T_UNREGISTER) as [T|_]; [specialize (K KUnregister ltac:(rewrite T; reflexivity))|
  destruct (Z.eqb_spec t T_SUBSCRIBE) as [T|_]; [specialize (K KSubscribe ltac:(rewrite T; reflexivity))|
  destruct (Z.eqb_spec t T_UNSUBSCRIBE) as [T|_]; [specialize (K KUnsubscribe ltac:(rewrite T; reflexivity))|
  destruct (Z.eqb_spec t T_PUBLISH) as [T|_]; [specialize (K KPublish ltac:(rewrite T; reflexivity))|
  fields; repeat split]]]]]];
  clear U; clearbody t; destruct a; unfold send_track; cbn [request_of shape fst snd] in K; fields;
  first [apply distinct in K; run_ifs K|split_ifs]; repeat split; try congruence.
Qed.

Lemma swap_invocation s a m : unrelated a (Invocation m) -> commute s a (Invocation m).
Proof.
  intros U. unfold commute, receive_message. unfold unrelated in U. destruct a; unfold send_track; cbn [request_of shape fst snd] in U;
  try (split_ifs; repeat split; congruence).
  - destruct (Z.eqb_spec (pyint_Z (er_type m0)) T_INVOCATION) as [T|T]; cbn [negb]; [|split_ifs; repeat split].
    apply distinct, not_eq_sym in U. run_ifs U; repeat split; congruence.
  - apply distinct, not_eq_sym in U. run_ifs U; repeat split; congruence.
Qed.

Lemma swap s a b : unrelated a b -> commute s a b.
Proof.
  intros U. destruct b; try (apply swap_error; exact U); try (apply swap_invocation; exact U);
  unfold commute, receive_message; unfold unrelated in U; destruct a; unfold send_track; cbn [request_of shape fst snd] in U;
  first [apply distinct in U; run_ifs U|split_ifs]; repeat split; try congruence.
Qed.

(** ** Runs *)
Lemma run_app c ops ops' : run c (ops ++ ops') = fold_left (step_h c) ops' (run c ops).
Proof. unfold run. apply fold_left_app. Qed.
Lemma send_state c s a : fst (send_message c s a) = fst (send_track s a).
Proof. unfold send_message. destruct (send_track s a). reflexivity. Qed.
Lemma send_result c s a : snd (send_message c s a) = (let! _ := snd (send_track s a) in serialize c a).
Proof. unfold send_message. destruct (send_track s a). reflexivity. Qed.

Lemma run_snd c ops a : fst (run c (ops ++ [Snd a])) = fst (send_track (fst (run c ops)) a).
Proof.
  rewrite run_app. cbn [fold_left]. unfold step_h, step. rewrite <- (send_state c). destruct (send_message c (fst (run c ops)) a). reflexivity.
Qed.
Lemma run_rcv c ops b : fst (run c (ops ++ [Rcv b])) = fst (receive_message (fst (run c ops)) b).
Proof. rewrite run_app. cbn [fold_left]. unfold step_h, step. destruct (receive_message (fst (run c ops)) b). reflexivity. Qed.

Lemma swap_results c ops a b : unrelated a b ->
  sends c (fst (run c (ops ++ [Rcv b]))) a = sends c (fst (run c ops)) a /\
  receives (fst (run c (ops ++ [Snd a]))) b = receives (fst (run c ops)) b.
Proof.
  intros U. destruct (swap (fst (run c ops)) a b U) as (_ & R & S). rewrite run_rcv, run_snd. split.
  - unfold sends. rewrite !send_result, S. reflexivity.
  - exact R.
Qed.

Definition same_run (x y : session * history) : Prop := fst x = fst y /\ Permutation (snd x) (snd y).
Lemma fold_same c post : forall x y, same_run x y -> same_run (fold_left (step_h c) post x) (fold_left (step_h c) post y).
Proof.
  induction post as [|o post IH]; intros x y S; [exact S|]. cbn [fold_left]. apply IH. destruct S as [E P]. unfold step_h. rewrite E.
  destruct (step c (fst y) o) as [s' b]. split; [reflexivity|]. cbn [snd]. constructor. exact P.
Qed.
Lemma reordered_same c ops ops' : reordered ops ops' -> same_run (run c ops) (run c ops').
Proof.
  intros R. induction R as [ops|pre a b post U|ops ops' _ [E P]|o1 o2 o3 _ [E1 P1] _ [E2 P2]].
  - split; reflexivity.
  - rewrite !run_app. cbn [fold_left]. apply fold_same. unfold step_h, step.
    destruct (swap (fst (run c pre)) a b U) as (S & R & Q).
    pose proof (send_state c (fst (run c pre)) a) as A1. pose proof (send_result c (fst (run c pre)) a) as A2.
    destruct (send_message c (fst (run c pre)) a) as [s1 r1]. cbn [fst snd] in *. subst s1.
    destruct (receive_message (fst (run c pre)) b) as [t1 q1]. cbn [fst snd] in *.
    destruct (receive_message (fst (send_track (fst (run c pre)) a)) b) as [s2 q2]. cbn [fst snd] in *. subst q2.
    pose proof (send_state c t1 a) as B1. pose proof (send_result c t1 a) as B2.
    destruct (send_message c t1 a) as [t2 r2]. cbn [fst snd] in *. rewrite Q, <- A2 in B2. subst r2 t2. rewrite S.
    split; [reflexivity|]. cbn [snd]. apply perm_swap.
  - split; [symmetry; exact E|apply Permutation_sym; exact P].
  - split; [congruence|eapply Permutation_trans; eassumption].
Qed.

(** ** Interleavings *)
Lemma reordered_cons o ops ops' : reordered ops ops' -> reordered (o :: ops) (o :: ops').
Proof.
  intros R. induction R as [ops|pre a b post U|ops ops' _ IH|o1 o2 o3 _ IH1 _ IH2].
  - apply R_same.
  - exact (R_swap (o :: pre) a b post U).
  - apply R_back, IH.
  - exact (R_then _ _ _ IH1 IH2).
Qed.
Lemma move_rcv b l post : (forall a, In a l -> unrelated a b) -> reordered (Rcv b :: map Snd l ++ post) (map Snd l ++ Rcv b :: post).
Proof.
  induction l as [|a l IH]; intros U; [apply R_same|]. cbn [map app]. apply R_then with (Snd a :: Rcv b :: map Snd l ++ post).
  - apply R_back. exact (R_swap [] a b _ (U a (or_introl eq_refl))).
  - apply reordered_cons, IH. intros x X. apply U. right. exact X.
Qed.
Lemma sends_first ops : all_unrelated ops -> reordered ops (map Snd (sent ops) ++ map Rcv (arrived ops)).
Proof.
  induction ops as [|[a|b] ops IH]; intros U; [apply R_same| |].
  - apply reordered_cons, IH. intros x y X Y. apply U; [right; exact X|exact Y].
  - apply R_then with (Rcv b :: map Snd (sent ops) ++ map Rcv (arrived ops)).
    + apply reordered_cons, IH. intros x y X Y. apply U; [exact X|right; exact Y].
    + apply (move_rcv b (sent ops) (map Rcv (arrived ops))). intros a A. apply U; [exact A|left; reflexivity].
Qed.
Lemma interleavings ops ops' : all_unrelated ops -> sent ops' = sent ops -> arrived ops' = arrived ops -> reordered ops ops'.
Proof.
  intros U S A. eapply R_then; [apply sends_first, U|]. rewrite <- S, <- A. apply R_back, sends_first. unfold all_unrelated. rewrite S, A. exact U.
Qed.
