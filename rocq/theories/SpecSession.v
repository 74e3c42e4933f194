(** * SpecSession: what a WAMPSession should accept, in terms of its history only.

    A history is the list of what happened so far, NEWEST FIRST: messages the user tried to send and messages
    that arrived, each with whether the session took it (did not raise).  No session state is mentioned. *)
From Coq Require Import String Ascii List ZArith Bool.
From Verif Require Import PyBase Messages SpecHistory.
Import ListNotations.
Local Open Scope Z_scope.

Inductive op := Snd (m : message) | Rcv (m : message).
Definition entry := (op * bool)%type.
Definition history := list entry.

(** An ERROR received for request [r] of a given kind. *)
Definition rcv_error (ty r : Z) (e : entry) : bool :=
  match e with
  | (Rcv (Error m), _) => (pyint_Z (er_type m) =? ty) && (pyint_Z (er_request m) =? r)
  | _ => false
  end.

(** ** Calls *)
Definition sent_call r (e : entry) := match e with (Snd (Call m), _) => pyint_Z (ca_request m) =? r | _ => false end.
Definition answered_call r (e : entry) :=
  match e with (Rcv (Result m), _) => pyint_Z (re_request m) =? r | _ => rcv_error T_CALL r e end.
Definition call_open r := since (sent_call r) (answered_call r).

(** ** Publish acknowledgements *)
Definition sent_ack_publish r (e : entry) :=
  match e with
  | (Snd (Publish m), _) => (pyint_Z (pb_request m) =? r) &&
      (match sget "acknowledge" (pb_options m) with Some v => truthy v | None => false end)
  | _ => false
  end.
Definition answered_publish r (e : entry) :=
  match e with (Rcv (Published m), _) => pyint_Z (pd_request m) =? r | _ => rcv_error T_PUBLISH r e end.
Definition publish_open r := since (sent_ack_publish r) (answered_publish r).

(** ** Registrations *)
Definition sent_register r (e : entry) :=
  match e with (Snd (Register m), _) => pyint_Z (rg_request m) =? r | _ => false end.
Definition answered_register r (e : entry) :=
  match e with (Rcv (Registered m), _) => pyint_Z (rd_request m) =? r | _ => rcv_error T_REGISTER r e end.
Definition register_open r := since (sent_register r) (answered_register r).

(** The registration that the unanswered UNREGISTER [r] is about. *)
Fixpoint unregister_target r (h : history) : option Z :=
  match h with
  | [] => None
  | (Snd (Unregister m), _) :: h' =>
      if pyint_Z (ur_request m) =? r then Some (pyint_Z (ur_registration m)) else unregister_target r h'
  | (Rcv (Unregistered m), _) :: h' =>
      if pyint_Z (un_request m) =? r then None else unregister_target r h'
  | e :: h' => if rcv_error T_UNREGISTER r e then None else unregister_target r h'
  end.

(** [g] was REGISTERED and not UNREGISTERED since. *)
Fixpoint registered_now g (h : history) : bool :=
  match h with
  | [] => false
  | (Rcv (Registered m), true) :: h' => if pyint_Z (rd_registration m) =? g then true else registered_now g h'
  | (Rcv (Unregistered m), true) :: h' =>
      match unregister_target (pyint_Z (un_request m)) h' with
      | Some g' => if g' =? g then false else registered_now g h'
      | None => registered_now g h'
      end
  | _ :: h' => registered_now g h'
  end.

(** ** Invocations *)
Definition got_invocation r (e : entry) :=
  match e with (Rcv (Invocation m), true) => pyint_Z (iv_request m) =? r | _ => false end.
Definition finished_invocation r (e : entry) :=
  match e with
  | (Snd (Yield m), _) => pyint_Z (yi_request m) =? r
  | (Snd (Error m), _) => (pyint_Z (er_type m) =? T_INVOCATION) && (pyint_Z (er_request m) =? r)
  | _ => false
  end.
Definition invocation_open r := since (got_invocation r) (finished_invocation r).

(** ** Subscriptions *)
Definition sent_subscribe r (e : entry) :=
  match e with (Snd (Subscribe m), _) => pyint_Z (su_request m) =? r | _ => false end.
Definition answered_subscribe r (e : entry) :=
  match e with (Rcv (Subscribed m), _) => pyint_Z (sd_request m) =? r | _ => rcv_error T_SUBSCRIBE r e end.
Definition subscribe_open r := since (sent_subscribe r) (answered_subscribe r).

Fixpoint unsubscribe_target r (h : history) : option Z :=
  match h with
  | [] => None
  | (Snd (Unsubscribe m), _) :: h' =>
      if pyint_Z (us_request m) =? r then Some (pyint_Z (us_subscription m)) else unsubscribe_target r h'
  | (Rcv (Unsubscribed m), _) :: h' =>
      if pyint_Z (ud_request m) =? r then None else unsubscribe_target r h'
  | e :: h' => if rcv_error T_UNSUBSCRIBE r e then None else unsubscribe_target r h'
  end.

Fixpoint subscribed_now g (h : history) : bool :=
  match h with
  | [] => false
  | (Rcv (Subscribed m), true) :: h' => if pyint_Z (sd_subscription m) =? g then true else subscribed_now g h'
  | (Rcv (Unsubscribed m), true) :: h' =>
      match unsubscribe_target (pyint_Z (ud_request m)) h' with
      | Some g' => if g' =? g then false else subscribed_now g h'
      | None => subscribed_now g h'
      end
  | _ :: h' => subscribed_now g h'
  end.

Definition open {A} (o : option A) : bool := match o with Some _ => true | None => false end.

(** What must be taken, given the history. *)
Definition acceptable (h : history) (o : op) : bool :=
  match o with
  | Snd (Yield m) => invocation_open (pyint_Z (yi_request m)) h
  | Snd (Error m) => pyint_Z (er_type m) =? T_INVOCATION
  | Snd (Call _) | Snd (Register _) | Snd (Unregister _) | Snd (Publish _) | Snd (Subscribe _)
  | Snd (Unsubscribe _) | Snd (Goodbye _) => true
  | Snd _ => false
  | Rcv (Result m) => call_open (pyint_Z (re_request m)) h
  | Rcv (Registered m) => register_open (pyint_Z (rd_request m)) h
  | Rcv (Unregistered m) =>
      match unregister_target (pyint_Z (un_request m)) h with Some g => registered_now g h | None => false end
  | Rcv (Invocation m) => registered_now (pyint_Z (iv_registration m)) h
  | Rcv (Published m) => publish_open (pyint_Z (pd_request m)) h
  | Rcv (Subscribed m) => subscribe_open (pyint_Z (sd_request m)) h
  | Rcv (Unsubscribed m) =>
      match unsubscribe_target (pyint_Z (ud_request m)) h with Some g => subscribed_now g h | None => false end
  | Rcv (Event m) => subscribed_now (pyint_Z (ev_subscription m)) h
  | Rcv (Error m) =>
      let t := pyint_Z (er_type m) in
      let r := pyint_Z (er_request m) in
      if t =? T_CALL then call_open r h
      else if t =? T_REGISTER then register_open r h
      else if t =? T_UNREGISTER then open (unregister_target r h)
      else if t =? T_SUBSCRIBE then subscribe_open r h
      else if t =? T_UNSUBSCRIBE then open (unsubscribe_target r h)
      else if t =? T_PUBLISH then publish_open r h
      else false
  | Rcv (Goodbye _) | Rcv (Abort _) => true
  | Rcv _ => false
  end.

(** ** Kinds of requests (C28) *)
Inductive kind := KCall | KPublish | KRegister | KUnregister | KInvocation | KSubscribe | KUnsubscribe | KOther.
Definition error_kind (t : Z) : kind :=
  if t =? T_CALL then KCall else if t =? T_PUBLISH then KPublish else if t =? T_REGISTER then KRegister
  else if t =? T_UNREGISTER then KUnregister else if t =? T_SUBSCRIBE then KSubscribe
  else if t =? T_UNSUBSCRIBE then KUnsubscribe else KOther.
(** The kind of request a message is about. *)
Definition op_kind (o : op) : kind :=
  match o with
  | Snd (Call _) | Rcv (Result _) => KCall
  | Snd (Publish _) | Rcv (Published _) => KPublish
  | Snd (Register _) | Rcv (Registered _) => KRegister
  | Snd (Unregister _) | Rcv (Unregistered _) => KUnregister
  | Snd (Yield _) | Rcv (Invocation _) => KInvocation
  | Snd (Subscribe _) | Rcv (Subscribed _) => KSubscribe
  | Snd (Unsubscribe _) | Rcv (Unsubscribed _) => KUnsubscribe
  | Snd (Error m) => if pyint_Z (er_type m) =? T_INVOCATION then KInvocation else KOther
  | Rcv (Error m) => error_kind (pyint_Z (er_type m))
  | _ => KOther
  end.
(** The kinds of messages that may influence whether [o] is accepted: its own, and, for messages that name a
    registration or subscription, those that create and end it. *)
Definition may_depend_on (o : op) : list kind :=
  match o with
  | Rcv (Unregistered _) | Rcv (Invocation _) => [KRegister; KUnregister]
  | Snd (Yield _) => [KRegister; KUnregister; KInvocation]
  | Rcv (Unsubscribed _) | Rcv (Event _) => [KSubscribe; KUnsubscribe]
  | o => [op_kind o]
  end.

(** The entry was taken by the session. *)
Definition taken (p : entry -> bool) (e : entry) : bool := p e && snd e.

Definition sent_yield r (e : entry) :=
  match e with (Snd (Yield m), _) => pyint_Z (yi_request m) =? r | _ => false end.

(** The answered UNREGISTER / UNSUBSCRIBE named something that is not registered / subscribed (any more). *)
Definition names_ended_target (h : history) (m : message) : bool :=
  match m with
  | Unregistered u => match unregister_target (pyint_Z (un_request u)) h with
                      | Some g => negb (registered_now g h) | None => false end
  | Unsubscribed u => match unsubscribe_target (pyint_Z (ud_request u)) h with
                      | Some g => negb (subscribed_now g h) | None => false end
  | _ => false
  end.
