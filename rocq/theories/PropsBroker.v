(** * PropsBroker: property theorems C47-C54 (Broker).

    [brun ops] executes any list of API calls on a fresh broker and returns the broker and the history (newest
    first); [banswer b o] is what one more call [o] returns.  [ids_issued h] counts the ids the history used up. *)
From Coq Require Import String Ascii List ZArith Bool Lia.
From Verif Require Import PyBase Messages IdGen Joiner SpecHistory Broker SpecBroker BrokerRun BrokerFacts BrokerTheorems.
Import ListNotations.
Local Open Scope string_scope.
Local Open Scope Z_scope.
Local Open Scope list_scope.

(** How [subscribed_as] and [subscribers] are to be read. *)
Theorem C47_subscribed_meaning : forall s t i h, subscribed_as s t h = Some i <->
  exists newer e older, h = newer ++ e :: older /\ subscribes e = Some (s, t, i) /\
    forall x, In x newer -> ~ ((exists j, subscribes x = Some (s, t, j)) \/ unsubscribes x = Some (s, i) \/ leaves s x = true).
Proof. exact subscribed_as_spec. Qed.
Print Assumptions C47_subscribed_meaning.

Theorem C47_subscribers_meaning : forall s t h, In s (subscribers t h) <-> exists i, subscribed_as s t h = Some i.
Proof. exact in_subscribers. Qed.
Print Assumptions C47_subscribers_meaning.

(** C47 *)
Theorem C47_recipients : forall ops s m p, let (b, h) := brun ops in
  ids_issued h <= 2 ^ 53 -> banswer b (BPub s m) = OPub p ->
  pu_recipients p = subscribers (pb_topic m) h /\ NoDup (pu_recipients p) /\
  (pu_event p <> None <-> pu_recipients p <> []).
Proof. exact recipients. Qed.
Print Assumptions C47_recipients.

Definition ex_join n := BJoin (mkDetails (PyInt n) "realm" None None).
Definition ex_sub s r t := BMsg s (Subscribe (mkSubscribe (PyInt r) t [])).
Definition ex_unsub s r i := BMsg s (Unsubscribe (mkUnsubscribe (PyInt r) (PyInt i))).
Definition ex_pub s r t o := BPub s (mkPublish (PyInt r) t (Some [VInt 7]) None o).
Definition ex_ops := [ex_join 10; ex_join 20; ex_join 30; ex_sub 30 1 "a"; ex_sub 10 1 "a"; ex_sub 20 1 "b"; ex_sub 20 2 "a";
                      ex_unsub 10 2 1; ex_sub 10 3 "a"; ex_sub 30 2 "a"].

Example C47_case : let (b, h) := brun ex_ops in
  ids_issued h = 2 /\ subscribers "a" h = [30; 20; 10] /\ subscribers "b" h = [20] /\ subscribers "c" h = [] /\
  banswer b (ex_pub 10 9 "a" []) =
    OPub (mkPublication (Some (mkEvent (PyInt 1) (PyInt 3) (Some [VInt 7]) None [])) [30; 20; 10] None) /\
  banswer b (ex_pub 10 9 "c" []) = OPub (mkPublication None [] None).
Proof. vm_compute. repeat split. Qed.

(** C48 *)
Theorem C48_subscribed_id : forall ops s s' t i m r, let (b, h) := brun ops in
  ids_issued h <= 2 ^ 53 -> subscribed_as s t h = Some i -> su_topic m = t ->
  banswer b (BMsg s' (Subscribe m)) = ORouted r ->
  r = mkRouted (Subscribed (mkSubscribed (su_request m) (PyInt i))) s'.
Proof. exact subscribe_same_id. Qed.
Print Assumptions C48_subscribed_id.

Theorem C48_event_id : forall ops s s' t i m p ev, let (b, h) := brun ops in
  ids_issued h <= 2 ^ 53 -> subscribed_as s t h = Some i -> pb_topic m = t ->
  banswer b (BPub s' m) = OPub p -> pu_event p = Some ev -> ev_subscription ev = PyInt i.
Proof. exact event_id. Qed.
Print Assumptions C48_event_id.

Theorem C48_distinct : forall ops s1 s2 t1 t2 i1 i2, let (b, h) := brun ops in
  ids_issued h <= 2 ^ 53 -> subscribed_as s1 t1 h = Some i1 -> subscribed_as s2 t2 h = Some i2 ->
  (i1 = i2 <-> t1 = t2).
Proof. exact ids_distinct. Qed.
Print Assumptions C48_distinct.

Example C48_case : let (b, h) := brun ex_ops in
  subscribed_as 30 "a" h = Some 1 /\ subscribed_as 20 "a" h = Some 1 /\ subscribed_as 20 "b" h = Some 2 /\
  subscribed_as 30 "b" h = None /\
  banswer b (ex_sub 30 5 "b") = ORouted (mkRouted (Subscribed (mkSubscribed (PyInt 5) (PyInt 2))) 30).
Proof. vm_compute. repeat split. Qed.

(** C49: false without a bound on the number of ids issued. *)
Theorem C49_refuted : exists ops s t1 t2 i, let h := snd (brun ops) in
  t1 <> t2 /\ subscribed_as s t1 h = Some i /\ subscribed_as s t2 h = Some i.
Proof. exact wrap_collision. Qed.
Print Assumptions C49_refuted.

(** ... with the visible effect that a session that left is still a recipient. *)
Theorem C49_ghost_refuted : exists ops s p, let (b, h) := brun ops in
  member s h = false /\
  banswer b (BPub 2 (mkPublish (PyInt 1) "a" None None [])) = OPub p /\ In s (pu_recipients p).
Proof. exact wrap_ghost. Qed.
Print Assumptions C49_ghost_refuted.

(** C50 *)
Theorem C50_content : forall ops s m p, let (b, h) := brun ops in banswer b (BPub s m) = OPub p ->
  exists pid,
    (forall ev, pu_event p = Some ev ->
       ev_args ev = pb_args m /\ ev_kwargs ev = pb_kwargs m /\ ev_details ev = [] /\ ev_publication ev = PyInt pid) /\
    pu_ack p = (if match sget "acknowledge" (pb_options m) with Some v => truthy v | None => false end
                then Some (mkRouted (Published (mkPublished (pb_request m) (PyInt pid))) s) else None) /\
    (ids_issued h < 2 ^ 53 -> ~ In pid (publications_seen h) /\ ~ In pid (subscriptions_seen h)).
Proof. exact publish_content. Qed.
Print Assumptions C50_content.

Example C50_case : let (b, h) := brun (ex_ops ++ [ex_pub 10 4 "b" [(VStr "acknowledge", VInt 1)]]) in
  publications_seen h = [3; 3] /\ subscriptions_seen h = [1; 1; 1; 2; 1; 1] /\
  banswer b (ex_pub 10 5 "b" [(VStr "acknowledge", VInt 1)]) =
    OPub (mkPublication (Some (mkEvent (PyInt 2) (PyInt 4) (Some [VInt 7]) None [])) [20]
            (Some (mkRouted (Published (mkPublished (PyInt 5) (PyInt 4))) 10))).
Proof. vm_compute. repeat split. Qed.

(** C51 *)
Theorem C51_unsubscribe : forall ops s m, let (b, h) := brun ops in ids_issued h <= 2 ^ 53 ->
  (banswer b (BMsg s (Unsubscribe m)) = ORouted (mkRouted (Unsubscribed (mkUnsubscribed (us_request m))) s) <->
   exists t, subscribed_as s t h = Some (pyint_Z (us_subscription m))) /\
  ((exists r, banswer b (BMsg s (Unsubscribe m)) = ORouted r) <->
   exists t, subscribed_as s t h = Some (pyint_Z (us_subscription m))).
Proof. exact unsubscribe_ok. Qed.
Print Assumptions C51_unsubscribe.

Theorem C51_exactly_that_one : forall ops s m r s' pm p q, let (b, h) := brun ops in ids_issued h <= 2 ^ 53 ->
  banswer b (BMsg s (Unsubscribe m)) = ORouted r ->
  banswer b (BPub s' pm) = OPub p -> banswer (fst (brun (ops ++ [BMsg s (Unsubscribe m)]))) (BPub s' pm) = OPub q ->
  (subscribed_as s (pb_topic pm) h = Some (pyint_Z (us_subscription m)) ->
     In s (pu_recipients p) /\ pu_recipients q = filter (fun x => negb (x =? s)) (pu_recipients p)) /\
  (subscribed_as s (pb_topic pm) h <> Some (pyint_Z (us_subscription m)) -> pu_recipients q = pu_recipients p).
Proof. exact recipients_after_unsubscribe. Qed.
Print Assumptions C51_exactly_that_one.

Theorem C51_has_subscription : forall ops t, let (b, h) := brun ops in ids_issued h <= 2 ^ 53 ->
  (has_subscription b t = true <-> subscribers t h <> []).
Proof. exact has_subscription_iff. Qed.
Print Assumptions C51_has_subscription.

Example C51_case : let (b, h) := brun ex_ops in
  banswer b (ex_unsub 20 7 1) = ORouted (mkRouted (Unsubscribed (mkUnsubscribed (PyInt 7))) 20) /\
  (exists e, banswer b (ex_unsub 30 7 2) = OExn (ValueError [e])) /\
  has_subscription b "b" = true /\ has_subscription (fst (brun (ex_ops ++ [ex_unsub 20 7 2]))) "b" = false /\
  banswer (fst (brun (ex_ops ++ [ex_unsub 20 7 1]))) (ex_pub 10 9 "a" []) =
    OPub (mkPublication (Some (mkEvent (PyInt 1) (PyInt 3) (Some [VInt 7]) None [])) [30; 10] None).
Proof. vm_compute. repeat split. eexists. reflexivity. Qed.

(** C52 *)
Theorem C52_membership : forall ops, let (b, h) := brun ops in
  (forall d, banswer b (BJoin d) = ODone <-> member (pyint_Z (det_session d)) h = false) /\
  (forall s, banswer b (BLeave s) = ODone <-> member s h = true) /\
  (forall s m, (exists r, banswer b (BMsg s (Subscribe m)) = ORouted r) <-> member s h = true) /\
  (forall s m, (exists p, banswer b (BPub s m) = OPub p) <-> member s h = true) /\
  (forall s m, (exists r, banswer b (BMsg s (Unsubscribe m)) = ORouted r) -> member s h = true) /\
  (forall s m, (forall x, m <> Subscribe x) -> (forall x, m <> Unsubscribe x) ->
     banswer b (BMsg s m) = OExn (ValueError ["message type not supported"])).
Proof. exact membership. Qed.
Print Assumptions C52_membership.

Theorem C52_subscribe_reply : forall ops s m, let (b, h) := brun ops in
  (member s h = true -> exists i, banswer b (BMsg s (Subscribe m)) =
      ORouted (mkRouted (Subscribed (mkSubscribed (su_request m) (PyInt i))) s)) /\
  (member s h = false -> exists e, banswer b (BMsg s (Subscribe m)) = OExn (ValueError [e])).
Proof. exact subscribe_result. Qed.
Print Assumptions C52_subscribe_reply.

Theorem C52_leave_ends_subscriptions : forall ops s s' pm p q, let (b, h) := brun ops in ids_issued h <= 2 ^ 53 ->
  banswer b (BLeave s) = ODone ->
  banswer b (BPub s' pm) = OPub p -> banswer (fst (brun (ops ++ [BLeave s]))) (BPub s' pm) = OPub q ->
  pu_recipients q = filter (fun x => negb (x =? s)) (pu_recipients p).
Proof. exact recipients_after_leave. Qed.
Print Assumptions C52_leave_ends_subscriptions.

Example C52_case : let (b, h) := brun (ex_ops ++ [BLeave 20]) in
  member 20 h = false /\ member 30 h = true /\ banswer b (BLeave 20) = OExn (ValueError ["cannot remove non-existing session"]) /\
  banswer b (ex_join 20) = ODone /\ banswer b (ex_join 30) = OExn (ValueError ["cannot add session twice"]) /\
  banswer b (ex_pub 20 1 "a" []) = OExn (ValueError ["cannot publish, session 20 doesn't exist"]) /\
  banswer b (ex_pub 30 1 "b" []) = OPub (mkPublication None [] None) /\
  banswer b (ex_pub 30 1 "a" []) =
    OPub (mkPublication (Some (mkEvent (PyInt 1) (PyInt 3) (Some [VInt 7]) None [])) [30; 10] None).
Proof. vm_compute. repeat split. Qed.

(** C53: no bound needed. *)
Theorem C53_only_value_errors : forall ops o e, let b := fst (brun ops) in
  banswer b o = OExn e -> (exists msg, e = ValueError [msg]) /\ fst (bstep b o) = b.
Proof. exact only_value_errors. Qed.
Print Assumptions C53_only_value_errors.

Example C53_case : banswer (fst (brun ex_ops)) (ex_unsub 10 1 99) =
  OExn (ValueError ["cannot unsubscribe, subscription 99 doesn't exist"]).
Proof. reflexivity. Qed.

(** C54: a subscribed publisher always gets its own event, whatever [exclude_me] says. *)
Theorem C54_refuted : forall ops s m p i, let (b, h) := brun ops in ids_issued h <= 2 ^ 53 ->
  subscribed_as s (pb_topic m) h = Some i -> banswer b (BPub s m) = OPub p -> In s (pu_recipients p).
Proof. exact own_event. Qed.
Print Assumptions C54_refuted.

Theorem C54_witness_refuted : exists ops s m p, sget "exclude_me" (pb_options m) = Some (VBool true) /\
  banswer (fst (brun ops)) (BPub s m) = OPub p /\ In s (pu_recipients p).
Proof.
  exists [ex_join 1; ex_sub 1 1 "a"], 1, (mkPublish (PyInt 2) "a" None None [(VStr "exclude_me", VBool true)]),
    (mkPublication (Some (mkEvent (PyInt 1) (PyInt 2) None None [])) [1] None).
  repeat split. left. reflexivity.
Qed.
Print Assumptions C54_witness_refuted.
