(** * Session: wampproto/session.py (class WAMPSession).  Definitions only. *)
From Coq Require Import String Ascii List ZArith Bool.
From Verif Require Import PyBase Messages Serializer.
Import ListNotations.
Local Open Scope Z_scope.

(** session.py:8-18.  Ints are stored as the number they compare equal to. *)
Record session := mkSession {
  call_requests : list Z;
  register_requests : list Z;
  registrations : list Z;
  invocation_requests : list Z;
  unregister_requests : list (Z * Z);
  publish_requests : list Z;
  subscribe_requests : list Z;
  subscriptions : list Z;
  unsubscribe_requests : list (Z * Z) }.

(** session.py:5-18 *)
Definition session_init : session := mkSession [] [] [] [] [] [] [] [] [].

Definition set_call_requests (s : session) x := mkSession x (register_requests s) (registrations s)
  (invocation_requests s) (unregister_requests s) (publish_requests s) (subscribe_requests s) (subscriptions s)
  (unsubscribe_requests s).
Definition set_register_requests (s : session) x := mkSession (call_requests s) x (registrations s)
  (invocation_requests s) (unregister_requests s) (publish_requests s) (subscribe_requests s) (subscriptions s)
  (unsubscribe_requests s).
Definition set_registrations (s : session) x := mkSession (call_requests s) (register_requests s) x
  (invocation_requests s) (unregister_requests s) (publish_requests s) (subscribe_requests s) (subscriptions s)
  (unsubscribe_requests s).
Definition set_invocation_requests (s : session) x := mkSession (call_requests s) (register_requests s)
  (registrations s) x (unregister_requests s) (publish_requests s) (subscribe_requests s) (subscriptions s)
  (unsubscribe_requests s).
Definition set_unregister_requests (s : session) x := mkSession (call_requests s) (register_requests s)
  (registrations s) (invocation_requests s) x (publish_requests s) (subscribe_requests s) (subscriptions s)
  (unsubscribe_requests s).
Definition set_publish_requests (s : session) x := mkSession (call_requests s) (register_requests s)
  (registrations s) (invocation_requests s) (unregister_requests s) x (subscribe_requests s) (subscriptions s)
  (unsubscribe_requests s).
Definition set_subscribe_requests (s : session) x := mkSession (call_requests s) (register_requests s)
  (registrations s) (invocation_requests s) (unregister_requests s) (publish_requests s) x (subscriptions s)
  (unsubscribe_requests s).
Definition set_subscriptions (s : session) x := mkSession (call_requests s) (register_requests s)
  (registrations s) (invocation_requests s) (unregister_requests s) (publish_requests s) (subscribe_requests s) x
  (unsubscribe_requests s).
Definition set_unsubscribe_requests (s : session) x := mkSession (call_requests s) (register_requests s)
  (registrations s) (invocation_requests s) (unregister_requests s) (publish_requests s) (subscribe_requests s)
  (subscriptions s) x.

Definition value_error {A} (s : string) : res A := Raise (ValueError [s]).

(** session.py:20-47: bookkeeping of [send_message], before serialization. *)
Definition send_track (s : session) (msg : message) : session * res unit :=
  match msg with
  | Call m => (set_call_requests s (sadd (pyint_Z (ca_request m)) (call_requests s)), Ok tt)
  | Register m => (set_register_requests s (sadd (pyint_Z (rg_request m)) (register_requests s)), Ok tt)
  | Unregister m =>
      (set_unregister_requests s
         (zset (pyint_Z (ur_request m)) (pyint_Z (ur_registration m)) (unregister_requests s)), Ok tt)
  | Yield m =>
      if smem (pyint_Z (yi_request m)) (invocation_requests s) then
        (set_invocation_requests s (srem (pyint_Z (yi_request m)) (invocation_requests s)), Ok tt)
      else (s, value_error "cannot yield for unknown invocation request")
  | Publish m =>
      if truthy (sget_default "acknowledge" (VBool false) (pb_options m)) then
        (set_publish_requests s (sadd (pyint_Z (pb_request m)) (publish_requests s)), Ok tt)
      else (s, Ok tt)
  | Subscribe m => (set_subscribe_requests s (sadd (pyint_Z (su_request m)) (subscribe_requests s)), Ok tt)
  | Unsubscribe m =>
      (set_unsubscribe_requests s
         (zset (pyint_Z (us_request m)) (pyint_Z (us_subscription m)) (unsubscribe_requests s)), Ok tt)
  | Error m =>
      if negb (pyint_Z (er_type m) =? T_INVOCATION) then (s, value_error "send only supported for invocation error")
      else (set_invocation_requests s (srem (pyint_Z (er_request m)) (invocation_requests s)), Ok tt)
  | Goodbye _ => (s, Ok tt)
  | _ => (s, value_error "unknown message type")
  end.

(** session.py:20-49 *)
Definition send_message (c : codec) (s : session) (msg : message) : session * res bytes :=
  let '(s', r) := send_track s msg in
  (s', let! _ := r in serialize c msg).

(** session.py:108-141: the ERROR branch of [receive_message]. *)
Definition receive_error (s : session) (m : error) : session * res message :=
  let t := pyint_Z (er_type m) in
  let r := pyint_Z (er_request m) in
  if t =? T_CALL then
    if smem r (call_requests s) then (set_call_requests s (srem r (call_requests s)), Ok (Error m))
    else (s, value_error "received ERROR for invalid call request")
  else if t =? T_REGISTER then
    if smem r (register_requests s) then (set_register_requests s (srem r (register_requests s)), Ok (Error m))
    else (s, value_error "received ERROR for invalid register request")
  else if t =? T_UNREGISTER then
    if zmem r (unregister_requests s) then (set_unregister_requests s (zdel r (unregister_requests s)), Ok (Error m))
    else (s, value_error "received ERROR for invalid unregister request")
  else if t =? T_SUBSCRIBE then
    if smem r (subscribe_requests s) then (set_subscribe_requests s (srem r (subscribe_requests s)), Ok (Error m))
    else (s, value_error "received ERROR for invalid subscribe request")
  else if t =? T_UNSUBSCRIBE then
    if zmem r (unsubscribe_requests s) then
      (set_unsubscribe_requests s (zdel r (unsubscribe_requests s)), Ok (Error m))
    else (s, value_error "received ERROR for invalid unsubscribe request")
  else if t =? T_PUBLISH then
    if smem r (publish_requests s) then (set_publish_requests s (srem r (publish_requests s)), Ok (Error m))
    else (s, value_error "received ERROR for invalid publish request")
  else (s, value_error "unknown error message type").

(** session.py:55-149 *)
Definition receive_message (s : session) (msg : message) : session * res message :=
  match msg with
  | Result m =>
      let r := pyint_Z (re_request m) in
      if smem r (call_requests s) then (set_call_requests s (srem r (call_requests s)), Ok msg)
      else (s, value_error "received RESULT for invalid request_id")
  | Registered m =>
      let r := pyint_Z (rd_request m) in
      if smem r (register_requests s) then
        let s1 := set_register_requests s (srem r (register_requests s)) in
        (set_registrations s1 (sadd (pyint_Z (rd_registration m)) (registrations s1)), Ok msg)
      else (s, value_error "received REGISTERED for invalid request_id")
  | Unregistered m =>
      let r := pyint_Z (un_request m) in
      match zget r (unregister_requests s) with
      | None => (s, value_error "received UNREGISTERED for invalid request_id")
      | Some registration_id =>
          let s1 := set_unregister_requests s (zdel r (unregister_requests s)) in
          if smem registration_id (registrations s1) then
            (set_registrations s1 (srem registration_id (registrations s1)), Ok msg)
          else (s1, value_error "received UNREGISTERED for invalid registration_id")
      end
  | Invocation m =>
      if smem (pyint_Z (iv_registration m)) (registrations s) then
        (set_invocation_requests s (sadd (pyint_Z (iv_request m)) (invocation_requests s)), Ok msg)
      else (s, value_error "received INVOCATION for invalid registration_id")
  | Published m =>
      let r := pyint_Z (pd_request m) in
      if smem r (publish_requests s) then (set_publish_requests s (srem r (publish_requests s)), Ok msg)
      else (s, value_error "received PUBLISHED for invalid registration_id")
  | Subscribed m =>
      let r := pyint_Z (sd_request m) in
      if smem r (subscribe_requests s) then
        let s1 := set_subscribe_requests s (srem r (subscribe_requests s)) in
        (set_subscriptions s1 (sadd (pyint_Z (sd_subscription m)) (subscriptions s1)), Ok msg)
      else (s, value_error "received SUBSCRIBED for invalid request_id")
  | Unsubscribed m =>
      let r := pyint_Z (ud_request m) in
      match zget r (unsubscribe_requests s) with
      | None => (s, value_error "received UNSUBSCRIBED for invalid request_id")
      | Some subscription_id =>
          let s1 := set_unsubscribe_requests s (zdel r (unsubscribe_requests s)) in
          if smem subscription_id (subscriptions s1) then
            (set_subscriptions s1 (srem subscription_id (subscriptions s1)), Ok msg)
          else (s1, value_error "received UNSUBSCRIBED for invalid subscription_id")
      end
  | Event m =>
      if smem (pyint_Z (ev_subscription m)) (subscriptions s) then (s, Ok msg)
      else (s, value_error "received EVENT for invalid subscription_id")
  | Error m => receive_error s m
  | Goodbye _ => (s, Ok msg)
  | Abort _ => (s, Ok msg)
  | _ => (s, value_error "unknown message")
  end.

(** session.py:51-53 *)
Definition receive (c : codec) (s : session) (data : bytes) : session * res message :=
  match deserialize c data with
  | Ok msg => receive_message s msg
  | Raise e => (s, Raise e)
  end.
