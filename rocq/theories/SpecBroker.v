(** * SpecBroker: what a broker should do, in terms of its history only (newest first).

    An entry is one call of the broker's API with what it returned.  No broker table is mentioned. *)
From Coq Require Import String List ZArith Bool.
From Verif Require Import PyBase Messages IdGen Joiner Broker SpecHistory.
Import ListNotations.
Local Open Scope Z_scope.

Inductive bop :=
| BJoin (d : details)                       (* add_session *)
| BLeave (s : Z)                            (* remove_session *)
| BMsg (s : Z) (m : message)                (* receive_message *)
| BPub (s : Z) (m : publish).               (* receive_publish *)
Inductive bout :=
| ODone                                     (* returned None *)
| ORouted (r : routed)
| OPub (p : publication)
| OExn (e : exn).
Definition bentry := (bop * bout)%type.
Definition bhistory := list bentry.

(** ** Membership *)
Definition joins s (e : bentry) :=
  match e with (BJoin d, ODone) => pyint_Z (det_session d) =? s | _ => false end.
Definition is_left (e : bentry) : option Z := match e with (BLeave s, ODone) => Some s | _ => None end.
Definition leaves s (e : bentry) := match is_left e with Some s' => s' =? s | None => false end.
Definition member s (h : bhistory) : bool := since (joins s) (leaves s) h.

(** ** Subscriptions *)
(** The session got SUBSCRIBED for a topic: (session, topic, subscription id). *)
Definition subscribes (e : bentry) : option (Z * string * Z) :=
  match e with
  | (BMsg s (Subscribe m), ORouted (mkRouted (Subscribed r) _)) => Some (s, su_topic m, pyint_Z (sd_subscription r))
  | _ => None
  end.
(** The session got UNSUBSCRIBED: (session, the id it named). *)
Definition unsubscribes (e : bentry) : option (Z * Z) :=
  match e with
  | (BMsg s (Unsubscribe m), ORouted (mkRouted (Unsubscribed _) _)) => Some (s, pyint_Z (us_subscription m))
  | _ => None
  end.

(** The id under which [s] is subscribed to [t] now: the one of its last SUBSCRIBED for [t], unless that id was
    UNSUBSCRIBED by [s] or [s] left since. *)
Fixpoint subscribed_as s t (h : bhistory) : option Z :=
  match h with
  | [] => None
  | e :: h' =>
      let before := subscribed_as s t h' in
      match subscribes e, unsubscribes e with
      | Some (s', t', i), _ => if (s' =? s) && String.eqb t' t then Some i else before
      | _, Some (s', i) =>
          if s' =? s then match before with Some j => if i =? j then None else before | None => None end else before
      | None, None => if leaves s e then None else before
      end
  end.

(** The sessions subscribed to [t] now, in the order in which they subscribed. *)
Definition without (s : Z) (l : list Z) : list Z := filter (fun x => negb (x =? s)) l.
Fixpoint subscribers t (h : bhistory) : list Z :=
  match h with
  | [] => []
  | e :: h' =>
      let before := subscribers t h' in
      match subscribes e, unsubscribes e, is_left e with
      | Some (s, t', _), _, _ => if String.eqb t' t && negb (existsb (Z.eqb s) before) then before ++ [s] else before
      | _, Some (s, i), _ =>
          match subscribed_as s t h' with Some j => if i =? j then without s before else before | None => before end
      | _, _, Some s => without s before
      | _, _, _ => before
      end
  end.

(** ** Ids handed out so far: one per accepted PUBLISH and one per SUBSCRIBE that found no subscriber. *)
Definition takes_id (e : bentry) (older : bhistory) : bool :=
  match e with
  | (BPub _ _, OPub _) => true
  | _ => match subscribes e with
         | Some (_, t, _) => match subscribers t older with [] => true | _ => false end
         | None => false
         end
  end.
Fixpoint ids_issued (h : bhistory) : Z :=
  match h with
  | [] => 0
  | e :: h' => ids_issued h' + (if takes_id e h' then 1 else 0)
  end.

(** Publication ids that anybody got to see. *)
Definition seen_publication (e : bentry) : list Z :=
  match e with
  | (_, OPub p) =>
      (match pu_event p with Some ev => [pyint_Z (ev_publication ev)] | None => [] end) ++
      (match pu_ack p with Some (mkRouted (Published a) _) => [pyint_Z (pd_publication a)] | _ => [] end)
  | _ => []
  end.
Definition publications_seen (h : bhistory) : list Z := flat_map seen_publication h.
(** Subscription ids that anybody got to see. *)
Definition subscriptions_seen (h : bhistory) : list Z :=
  flat_map (fun e => match subscribes e with Some (_, _, i) => [i] | None => [] end) h.
