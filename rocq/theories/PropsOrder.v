(** * PropsOrder: property theorems C106-C107: messages arrive in order.

    [history acts s h]: [h] lists what session [s] received, oldest first, each with the number of the action (the sending of
    a message by some connected client) that gave rise to it; [precedes acts p q]: if the two go back to messages of one
    client, then that of [p] was sent before that of [q], or [p] and [q] are acknowledgement and event of one publication. *)
From Coq Require Import String Ascii List ZArith Bool Lia.
From Verif Require Import PyBase Messages IdGen Joiner Session Broker Dealer SpecDealer Network SpecNetwork SpecOrder NetworkOnce NetworkOrder.
From Verif Require Import PropsNetwork.
Import ListNotations.
Local Open Scope string_scope.
Local Open Scope Z_scope.
Local Open Scope list_scope.

(** C106: what one client causes another to receive arrives in the order in which it was sent, nothing more than once. *)
Theorem C106_in_order : forall acts s, exists h, history acts s h /\ ForallOrdPairs (precedes acts) h.
Proof. exact in_order. Qed.
Print Assumptions C106_in_order.

(** In particular: the event of a later publication of a client never arrives before that of an earlier one.  (The payloads
    identify the publications.) *)
Definition same_payload (p : publish) (a : option (list val)) (k : option (list (val * val))) : Prop := pb_args p = a /\ pb_kwargs p = k.
Theorem C106_two_events : forall a1 y1 c p1 a2 y2 p2 a3 s l1 e2 l2 e1 l3,
  let acts := a1 ++ y1 :: a2 ++ y2 :: a3 in sending y1 c (Publish p1) -> sending y2 c (Publish p2) ->
  (forall b x y p b', acts = b ++ x :: b' -> sending x y (Publish p) -> same_payload p (pb_args p1) (pb_kwargs p1) -> length b = length a1) ->
  (forall b x y p b', acts = b ++ x :: b' -> sending x y (Publish p) -> same_payload p (pb_args p2) (pb_kwargs p2) -> length b = length (a1 ++ y1 :: a2)) ->
  same_payload p1 (ev_args e1) (ev_kwargs e1) -> same_payload p2 (ev_args e2) (ev_kwargs e2) ->
  rev (inbox s (snd (nrun acts))) <> l1 ++ Event e2 :: l2 ++ Event e1 :: l3.
Proof. exact two_events. Qed.
Print Assumptions C106_two_events.

(** Session 10 subscribes; 20 publishes "x" and "y" (and asks for acknowledgement, being subscribed itself); the router and
    session 10 work in between.  "y" is sent past WAMPSession. *)
Definition x_pubx s r t x o := ASend s (Publish (mkPublish (PyInt r) t (Some [VStr x]) None o)).
Definition x_puty := APut 20 (Publish (mkPublish (PyInt 3) "a" (Some [VStr "y"]) None ACK)).
Definition x_order : list action :=
  [x_join 10; x_join 20; x_sub 10 1 "a"; x_sub 20 1 "a"; ARoute 20; ARoute 10; ADeliver 10; ADeliver 20;
   x_pubx 20 2 "a" "x" ACK; x_puty; ARoute 20; ADeliver 10; ARoute 20; ADeliver 10; ADeliver 20; ADeliver 20; ADeliver 20; ADeliver 20].
Definition x_event p x := Event (mkEvent (PyInt 1) (PyInt p) (Some [VStr x]) None []).
Example C106_case :
  rev (inbox 10 (snd (nrun x_order))) = [Subscribed (mkSubscribed (PyInt 1) (PyInt 1)); x_event 2 "x"; x_event 3 "y"] /\
  rev (inbox 20 (snd (nrun x_order))) = [Subscribed (mkSubscribed (PyInt 1) (PyInt 1)); Published (mkPublished (PyInt 2) (PyInt 2)); x_event 2 "x";
    Published (mkPublished (PyInt 3) (PyInt 3)); x_event 3 "y"] /\
  history x_order 10 [(2%nat, Subscribed (mkSubscribed (PyInt 1) (PyInt 1))); (8%nat, x_event 2 "x"); (9%nat, x_event 3 "y")].
Proof.
  split; [vm_compute; reflexivity|]. split; [vm_compute; reflexivity|]. split; [vm_compute; reflexivity|].
  repeat constructor; eexists _, _; (split; [split; [eexists; split; [vm_compute; reflexivity|constructor; reflexivity]|vm_compute; reflexivity]|]); split; reflexivity.
Qed.
Example C106_two_events_case : let a1 := firstn 8 x_order in let a3 := skipn 10 x_order in
  x_order = a1 ++ x_pubx 20 2 "a" "x" ACK :: [] ++ x_puty :: a3 /\
  (forall b x y p b', x_order = b ++ x :: b' -> sending x y (Publish p) -> same_payload p (Some [VStr "x"]) None -> length b = 8%nat) /\
  (forall b x y p b', x_order = b ++ x :: b' -> sending x y (Publish p) -> same_payload p (Some [VStr "y"]) None -> length b = 9%nat).
Proof.
  cbv zeta. split; [reflexivity|].
  split; intros b x y p b' E [Y|Y] [H1 H2]; subst x; unfold x_order in E;
    repeat (destruct b as [|? b]; cbn [app] in E; [try discriminate E; injection E as E1 E2 E3; subst; try discriminate H1; try reflexivity|injection E as _ E]);
    destruct b; discriminate E.
Qed.

(** C107: publication ids increase in the order in which a session receives events; so do the request ids of invocations
    (of calls that are not progressive). *)
Theorem C107_publications_increase : forall acts s, routings acts <= 2 ^ 53 ->
  ForallOrdPairs Z.lt (publications (rev (inbox s (snd (nrun acts))))).
Proof. exact events_sorted. Qed.
Print Assumptions C107_publications_increase.
Theorem C107_invocations_increase : forall acts s, routings acts <= 2 ^ 53 ->
  (forall c m, has_sent acts c (Call m) -> wants "progress" (ca_options m) = false) ->
  ForallOrdPairs Z.lt (invocation_ids (rev (inbox s (snd (nrun acts))))).
Proof. exact invocations_sorted. Qed.
Print Assumptions C107_invocations_increase.

(** Hence all subscribers see the publications they have in common in the same order. *)
Theorem C107_same_order : forall acts s1 s2 p q a1 a2 a3 b1 b2 b3, routings acts <= 2 ^ 53 ->
  publications (rev (inbox s1 (snd (nrun acts)))) = a1 ++ p :: a2 ++ q :: a3 ->
  publications (rev (inbox s2 (snd (nrun acts)))) <> b1 ++ q :: b2 ++ p :: b3.
Proof. exact same_order. Qed.
Print Assumptions C107_same_order.

(** Session 20 and 10 publish; both receive both events, 2 before 3. *)
Definition x_two : list action :=
  [x_join 10; x_join 20; x_sub 10 1 "a"; x_sub 20 1 "a"; ARoute 20; ARoute 10; ADeliver 10; ADeliver 20;
   x_pubx 10 2 "a" "x" []; x_pubx 20 3 "a" "y" []; ARoute 20; ADeliver 10; ARoute 10; ADeliver 10; ADeliver 20; ADeliver 20].
Example C107_case :
  publications (rev (inbox 10 (snd (nrun x_two)))) = [2; 3] /\ publications (rev (inbox 20 (snd (nrun x_two)))) = [2; 3] /\
  routings x_two <= 2 ^ 53.
Proof. split; [vm_compute; reflexivity|]. split; [vm_compute; reflexivity|]. vm_compute. discriminate. Qed.
Definition x_calls : list action :=
  [x_join 10; x_join 20; x_reg 10 1 "p"; ARoute 10; ADeliver 10; x_call 20 1 "p" []; x_call 10 1 "p" []; ARoute 10; ARoute 20; ADeliver 10; ADeliver 10].
Example C107_case_calls :
  invocation_ids (rev (inbox 10 (snd (nrun x_calls)))) = [2; 3] /\
  (forall c m, has_sent x_calls c (Call m) -> wants "progress" (ca_options m) = false).
Proof.
  split; [vm_compute; reflexivity|]. intros c m [H|H].
  all: repeat (destruct H as [H|H]; [try discriminate; try (injection H; intros; subst; reflexivity)|]); destruct H.
Qed.
