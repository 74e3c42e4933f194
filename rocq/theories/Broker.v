(** * Broker: wampproto/broker.py and the result types of types.py.  Definitions only.

    Session ids are Python ints; they are only compared, used as dict keys and printed, so they are [Z] here (a
    bool id is the same dict key).  [Subscription] objects are mutable and shared between the two tables, so
    they live in a heap: an append-only list, addressed by position.  A reference outside the heap gives
    [ModelGap]; PropsBroker C53 shows that it cannot happen. *)
From Coq Require Import String Ascii List ZArith Bool.
From Verif Require Import PyBase Messages IdGen Joiner.
Import ListNotations.
Local Open Scope string_scope.
Local Open Scope Z_scope.
Local Open Scope list_scope.

(** types.py:41-44 *)
Record routed := mkRouted { rt_message : message; rt_recipient : Z }.
(** types.py:47-51 *)
Record publication := mkPublication {
  pu_event : option event; pu_recipients : list Z; pu_ack : option routed }.

(** broker.py:6-10 *)
Record subscription := mkSub { sub_id : Z; sub_topic : string; sub_subscribers : list (Z * Z) }.

(** broker.py:14-19, plus the heap of subscription objects. *)
Record broker := mkBroker {
  b_heap : list subscription;
  b_by_topic : list (string * nat);
  b_by_session : list (Z * list (Z * nat));
  b_sessions : list (Z * details);
  b_idgen : idgen }.
Definition broker_init : broker := mkBroker [] [] [] [] idgen_init.

(** Write through a reference. *)
Fixpoint put {A} (l : list A) (n : nat) (x : A) : list A :=
  match l, n with
  | [], _ => []
  | _ :: l', O => x :: l'
  | y :: l', S n' => y :: put l' n' x
  end.

Definition bad {A} (s : string) : res A := Raise (ValueError [s]).
(** [f"{x}"] of an int or bool. *)
Definition str_of_pyint (p : pyint) : string :=
  match p with PyInt z => str_of_Z z | PyBool true => "True" | PyBool false => "False" end.

Definition set_bheap (b : broker) x := mkBroker x (b_by_topic b) (b_by_session b) (b_sessions b) (b_idgen b).
Definition set_btopic (b : broker) x := mkBroker (b_heap b) x (b_by_session b) (b_sessions b) (b_idgen b).
Definition set_bsession (b : broker) x := mkBroker (b_heap b) (b_by_topic b) x (b_sessions b) (b_idgen b).
Definition set_bsessions (b : broker) x := mkBroker (b_heap b) (b_by_topic b) (b_by_session b) x (b_idgen b).
Definition set_bidgen (b : broker) x := mkBroker (b_heap b) (b_by_topic b) (b_by_session b) (b_sessions b) x.

(** broker.py:21-26 *)
Definition b_add_session (b : broker) (d : details) : broker * res unit :=
  let sid := pyint_Z (det_session d) in
  if zmem sid (b_by_session b) then (b, bad "cannot add session twice")
  else (set_bsessions (set_bsession b (zset sid [] (b_by_session b))) (zset sid d (b_sessions b)), Ok tt).

(** broker.py:71-73 and, with the test of line 35 first, 35-39: drop [sid] from the subscription at [l], and the
    subscription from [by_topic] when it was the last one. *)
Definition drop_topic_if_empty (b : broker) (sub : subscription) : broker * res unit :=
  match sub_subscribers sub with
  | [] =>
      if tmem (sub_topic sub) (b_by_topic b) then (set_btopic b (tdel (sub_topic sub) (b_by_topic b)), Ok tt)
      else (b, Raise KeyError)
  | _ => (b, Ok tt)
  end.

(** broker.py:33-39, one iteration; [l] is the reference stored in the session's own table. *)
Definition remove_one (sid : Z) (b : broker) (l : nat) : broker * res unit :=
  match nth_error (b_heap b) l with
  | None => (b, Raise ModelGap)
  | Some sub =>
      match tget (sub_topic sub) (b_by_topic b) with
      | None => (b, Raise KeyError)
      | Some l' =>
          match nth_error (b_heap b) l' with
          | None => (b, Raise ModelGap)
          | Some sub' =>
              let sub'' :=
                if zmem sid (sub_subscribers sub')
                then mkSub (sub_id sub') (sub_topic sub') (zdel sid (sub_subscribers sub')) else sub' in
              drop_topic_if_empty (set_bheap b (put (b_heap b) l' sub'')) sub''
          end
      end
  end.

(** broker.py:33-39 *)
Fixpoint remove_all (sid : Z) (b : broker) (ls : list (Z * nat)) : broker * res unit :=
  match ls with
  | [] => (b, Ok tt)
  | (_, l) :: ls' =>
      match remove_one sid b l with
      | (b', Ok _) => remove_all sid b' ls'
      | r => r
      end
  end.

(** broker.py:28-41 *)
Definition b_remove_session (b : broker) (sid : Z) : broker * res unit :=
  match zget sid (b_by_session b) with
  | None => (b, bad "cannot remove non-existing session")
  | Some subs =>
      match remove_all sid (set_bsession b (zdel sid (b_by_session b))) subs with
      | (b', Ok _) =>
          if zmem sid (b_sessions b') then (set_bsessions b' (zdel sid (b_sessions b')), Ok tt)
          else (b', Raise KeyError)
      | r => r
      end
  end.

(** broker.py:43-44 *)
Definition has_subscription (b : broker) (topic : string) : bool := tmem topic (b_by_topic b).

(** broker.py:47-61 *)
Definition b_subscribe (b : broker) (sid : Z) (m : subscribe) : broker * res routed :=
  match zget sid (b_by_session b) with
  | None => (b, bad ("cannot subscribe, session " ++ str_of_Z sid ++ " doesn't exist")%string)
  | Some own =>
      let finish b' l id :=
        (set_bsession b' (zset sid (zset id l own) (b_by_session b')),
         Ok (mkRouted (Subscribed (mkSubscribed (su_request m) (PyInt id))) sid)) in
      match tget (su_topic m) (b_by_topic b) with
      | None =>
          let (g, id) := next_id (b_idgen b) in
          let l := length (b_heap b) in
          let b1 := set_bidgen (set_bheap b (b_heap b ++ [mkSub id (su_topic m) [(sid, sid)]])) g in
          finish (set_btopic b1 (tset (su_topic m) l (b_by_topic b1))) l id
      | Some l =>
          match nth_error (b_heap b) l with
          | None => (b, Raise ModelGap)
          | Some sub =>
              finish (set_bheap b (put (b_heap b) l
                        (mkSub (sub_id sub) (sub_topic sub) (zset sid sid (sub_subscribers sub))))) l (sub_id sub)
          end
      end
  end.

(** broker.py:62-78 *)
Definition b_unsubscribe (b : broker) (sid : Z) (m : unsubscribe) : broker * res routed :=
  match zget sid (b_by_session b) with
  | None => (b, bad ("cannot unsubscribe, session " ++ str_of_Z sid ++ " doesn't exist")%string)
  | Some own =>
      let id := pyint_Z (us_subscription m) in
      match zget id own with
      | None => (b, bad ("cannot unsubscribe, subscription " ++ str_of_pyint (us_subscription m) ++ " doesn't exist")%string)
      | Some l =>
          match nth_error (b_heap b) l with
          | None => (b, Raise ModelGap)
          | Some sub =>
              if negb (zmem sid (sub_subscribers sub)) then (b, Raise KeyError)
              else
                let sub' := mkSub (sub_id sub) (sub_topic sub) (zdel sid (sub_subscribers sub)) in
                match drop_topic_if_empty (set_bheap b (put (b_heap b) l sub')) sub' with
                | (b', Ok _) =>
                    (set_bsession b' (zset sid (zdel id own) (b_by_session b')),
                     Ok (mkRouted (Unsubscribed (mkUnsubscribed (us_request m))) sid))
                | (b', Raise e) => (b', Raise e)
                end
          end
      end
  end.

(** broker.py:46-80 *)
Definition b_receive_message (b : broker) (sid : Z) (msg : message) : broker * res routed :=
  match msg with
  | Subscribe m => b_subscribe b sid m
  | Unsubscribe m => b_unsubscribe b sid m
  | _ => (b, bad "message type not supported")
  end.

(** broker.py:82-101.  event.py:46: details default to [{}]. *)
Definition b_receive_publish (b : broker) (sid : Z) (m : publish) : broker * res publication :=
  if negb (zmem sid (b_by_session b)) then
    (b, bad ("cannot publish, session " ++ str_of_Z sid ++ " doesn't exist")%string)
  else
    let (g, pid) := next_id (b_idgen b) in
    let b' := set_bidgen b g in
    let ack :=
      if truthy (sget_default "acknowledge" (VBool false) (pb_options m))
      then Some (mkRouted (Published (mkPublished (pb_request m) (PyInt pid))) sid) else None in
    match tget (pb_topic m) (b_by_topic b') with
    | None => (b', Ok (mkPublication None [] ack))
    | Some l =>
        match nth_error (b_heap b') l with
        | None => (b', Raise ModelGap)
        | Some sub =>
            (b', Ok (mkPublication
                       (Some (mkEvent (PyInt (sub_id sub)) (PyInt pid) (pb_args m) (pb_kwargs m) []))
                       (map fst (sub_subscribers sub)) ack))
        end
    end.
