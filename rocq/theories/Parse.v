(** * Parse: the [VALIDATION_SPEC]s and [parse] class methods of wampproto/messages/*.py, and
    wampproto/serializers/serializer.py [to_message].  Definitions only. *)
From Coq Require Import String Ascii List ZArith Bool.
From Verif Require Import PyBase Messages Validate.
Import ListNotations.
Local Open Scope Z_scope.
Local Open Scope string_scope.
Local Open Scope nat_scope.

(** hello.py:73-81 *)
Definition SPEC_hello := mkSpec 3 3 "HELLO" [(1, validate_realm); (2, validate_hello_details)].
(** welcome.py:83-91 *)
Definition SPEC_welcome := mkSpec 3 3 "WELCOME" [(1, validate_session_id); (2, validate_welcome_details)].
(** abort.py:57-67 *)
Definition SPEC_abort := mkSpec 3 5 "ABORT"
  [(1, validate_details); (2, validate_reason); (3, validate_args); (4, validate_kwargs)].
(** challenge.py:38-46 *)
Definition SPEC_challenge := mkSpec 3 3 "CHALLENGE" [(1, validate_authmethod); (2, validate_extra)].
(** authenticate.py:39-47 *)
Definition SPEC_authenticate := mkSpec 3 3 "AUTHENTICATE" [(1, validate_signature); (2, validate_extra)].
(** goodbye.py:38-46 *)
Definition SPEC_goodbye := mkSpec 3 3 "GOODBYE" [(1, validate_details); (2, validate_reason)].
(** error.py:94-106 *)
Definition SPEC_error := mkSpec 5 7 "ERROR"
  [(1, validate_message_type); (2, validate_request_id); (3, validate_details); (4, validate_uri);
   (5, validate_args); (6, validate_kwargs)].
(** publish.py:84-95 *)
Definition SPEC_publish := mkSpec 4 6 "PUBLISH"
  [(1, validate_request_id); (2, validate_options); (3, validate_topic); (4, validate_args); (5, validate_kwargs)].
(** published.py:38-46 *)
Definition SPEC_published := mkSpec 3 3 "PUBLISHED" [(1, validate_request_id); (2, validate_publication_id)].
(** subscribe.py:48-57 *)
Definition SPEC_subscribe := mkSpec 4 4 "SUBSCRIBE"
  [(1, validate_request_id); (2, validate_options); (3, validate_topic)].
(** subscribed.py:39-47 *)
Definition SPEC_subscribed := mkSpec 3 3 "SUBSCRIBED" [(1, validate_request_id); (2, validate_subscription_id)].
(** unsubscribe.py:39-47 *)
Definition SPEC_unsubscribe := mkSpec 3 3 "UNSUBSCRIBE" [(1, validate_request_id); (2, validate_subscription_id)].
(** unsubscribed.py:30-37 *)
Definition SPEC_unsubscribed := mkSpec 2 2 "UNSUBSCRIBED" [(1, validate_request_id)].
(** event.py:84-95 *)
Definition SPEC_event := mkSpec 4 6 "EVENT"
  [(1, validate_subscription_id); (2, validate_publication_id); (3, validate_details); (4, validate_args);
   (5, validate_kwargs)].
(** call.py:92-103 *)
Definition SPEC_call := mkSpec 4 6 "CALL"
  [(1, validate_request_id); (2, validate_options); (3, validate_procedure); (4, validate_args); (5, validate_kwargs)].
(** cancel.py:38-46 *)
Definition SPEC_cancel := mkSpec 3 3 "CANCEL" [(1, validate_request_id); (2, validate_options)].
(** result.py:81-91 *)
Definition SPEC_result := mkSpec 3 5 "RESULT"
  [(1, validate_request_id); (2, validate_details); (3, validate_args); (4, validate_kwargs)].
(** register.py:47-56 *)
Definition SPEC_register := mkSpec 4 4 "REGISTER"
  [(1, validate_request_id); (2, validate_options); (3, validate_procedure)].
(** registered.py:39-47 *)
Definition SPEC_registered := mkSpec 3 3 "REGISTERED" [(1, validate_request_id); (2, validate_registration_id)].
(** unregister.py:39-47 *)
Definition SPEC_unregister := mkSpec 3 3 "UNREGISTER" [(1, validate_request_id); (2, validate_registration_id)].
(** unregistered.py:30-37 *)
Definition SPEC_unregistered := mkSpec 2 2 "UNREGISTERED" [(1, validate_request_id)].
(** invocation.py:91-102 *)
Definition SPEC_invocation := mkSpec 4 6 "INVOCATION"
  [(1, validate_request_id); (2, validate_registration_id); (3, validate_details); (4, validate_args);
   (5, validate_kwargs)].
(** interrupt.py:37-45 *)
Definition SPEC_interrupt := mkSpec 3 3 "INTERRUPT" [(1, validate_request_id); (2, validate_options)].
(** yield_.py:81-91 *)
Definition SPEC_yield := mkSpec 3 5 "YIELD"
  [(1, validate_request_id); (2, validate_options); (3, validate_args); (4, validate_kwargs)].

(** Reading an attribute of [Fields] that the spec has set.  An unset attribute would be [None] in Python; the
    typed model raises [ModelGap] instead, which is proved unreachable (C04). *)
Definition need {A} (o : option A) : res A := match o with Some a => Ok a | None => Raise ModelGap end.

(** hello.py:107-118 *)
Definition parse_hello (msg : list val) : res message :=
  let! f := validate_message msg T_HELLO SPEC_hello in
  let! realm := need (f_realm f) in
  let! roles := need (f_roles f) in
  Ok (Hello (mkHello realm roles (f_authid f) (f_authmethods f) (f_authextra f))).

(** welcome.py:121-133; [authextra] None -> {} by welcome.py:52. *)
Definition parse_welcome (msg : list val) : res message :=
  let! f := validate_message msg T_WELCOME SPEC_welcome in
  let! sid := need (f_session_id f) in
  let! roles := need (f_roles f) in
  Ok (Welcome (mkWelcome sid roles (f_authid f) (f_authrole f) (f_authmethod f) (dict_or_empty (f_authextra f)))).

(** abort.py:89-92 *)
Definition parse_abort (msg : list val) : res message :=
  let! f := validate_message msg T_ABORT SPEC_abort in
  let! details := need (f_details f) in
  let! reason := need (f_reason f) in
  Ok (Abort (mkAbort details reason (f_args f) (f_kwargs f))).

(** challenge.py:60-63 *)
Definition parse_challenge (msg : list val) : res message :=
  let! f := validate_message msg T_CHALLENGE SPEC_challenge in
  let! m := need (f_authmethod f) in
  Ok (Challenge (mkChallenge m (dict_or_empty (f_extra f)))).

(** authenticate.py:61-64 *)
Definition parse_authenticate (msg : list val) : res message :=
  let! f := validate_message msg T_AUTHENTICATE SPEC_authenticate in
  let! s := need (f_signature f) in
  Ok (Authenticate (mkAuthenticate s (dict_or_empty (f_extra f)))).

(** goodbye.py:60-63 *)
Definition parse_goodbye (msg : list val) : res message :=
  let! f := validate_message msg T_GOODBYE SPEC_goodbye in
  let! details := need (f_details f) in
  let! reason := need (f_reason f) in
  Ok (Goodbye (mkGoodbye details reason)).

(** error.py:147-150 *)
Definition parse_error (msg : list val) : res message :=
  let! f := validate_message msg T_ERROR SPEC_error in
  let! t := need (f_message_type f) in
  let! r := need (f_request_id f) in
  let! u := need (f_uri f) in
  Ok (Error (mkError t r u (f_args f) (f_kwargs f) (dict_or_empty (f_details f)))).

(** publish.py:132-135 *)
Definition parse_publish (msg : list val) : res message :=
  let! f := validate_message msg T_PUBLISH SPEC_publish in
  let! r := need (f_request_id f) in
  let! t := need (f_topic f) in
  Ok (Publish (mkPublish r t (f_args f) (f_kwargs f) (dict_or_empty (f_options f)))).

(** published.py:60-63 *)
Definition parse_published (msg : list val) : res message :=
  let! f := validate_message msg T_PUBLISHED SPEC_published in
  let! r := need (f_request_id f) in
  let! p := need (f_publication_id f) in
  Ok (Published (mkPublished r p)).

(** subscribe.py:75-78 *)
Definition parse_subscribe (msg : list val) : res message :=
  let! f := validate_message msg T_SUBSCRIBE SPEC_subscribe in
  let! r := need (f_request_id f) in
  let! t := need (f_topic f) in
  Ok (Subscribe (mkSubscribe r t (dict_or_empty (f_options f)))).

(** subscribed.py:61-64 *)
Definition parse_subscribed (msg : list val) : res message :=
  let! f := validate_message msg T_SUBSCRIBED SPEC_subscribed in
  let! r := need (f_request_id f) in
  let! s := need (f_subscription_id f) in
  Ok (Subscribed (mkSubscribed r s)).

(** unsubscribe.py:61-64 *)
Definition parse_unsubscribe (msg : list val) : res message :=
  let! f := validate_message msg T_UNSUBSCRIBE SPEC_unsubscribe in
  let! r := need (f_request_id f) in
  let! s := need (f_subscription_id f) in
  Ok (Unsubscribe (mkUnsubscribe r s)).

(** unsubscribed.py:47-50 *)
Definition parse_unsubscribed (msg : list val) : res message :=
  let! f := validate_message msg T_UNSUBSCRIBED SPEC_unsubscribed in
  let! r := need (f_request_id f) in
  Ok (Unsubscribed (mkUnsubscribed r)).

(** event.py:132-135 *)
Definition parse_event (msg : list val) : res message :=
  let! f := validate_message msg T_EVENT SPEC_event in
  let! s := need (f_subscription_id f) in
  let! p := need (f_publication_id f) in
  Ok (Event (mkEvent s p (f_args f) (f_kwargs f) (dict_or_empty (f_details f)))).

(** call.py:143-146 *)
Definition parse_call (msg : list val) : res message :=
  let! f := validate_message msg T_CALL SPEC_call in
  let! r := need (f_request_id f) in
  let! p := need (f_procedure f) in
  Ok (Call (mkCall r p (f_args f) (f_kwargs f) (dict_or_empty (f_options f)) no_payload)).

(** cancel.py:60-63 *)
Definition parse_cancel (msg : list val) : res message :=
  let! f := validate_message msg T_CANCEL SPEC_cancel in
  let! r := need (f_request_id f) in
  Ok (Cancel (mkCancel r (dict_or_empty (f_options f)))).

(** result.py:127-130 *)
Definition parse_result (msg : list val) : res message :=
  let! f := validate_message msg T_RESULT SPEC_result in
  let! r := need (f_request_id f) in
  Ok (Result (mkResult r (f_args f) (f_kwargs f) (dict_or_empty (f_details f)) no_payload)).

(** register.py:74-77 *)
Definition parse_register (msg : list val) : res message :=
  let! f := validate_message msg T_REGISTER SPEC_register in
  let! r := need (f_request_id f) in
  let! p := need (f_procedure f) in
  Ok (Register (mkRegister r p (dict_or_empty (f_options f)))).

(** registered.py:61-64 *)
Definition parse_registered (msg : list val) : res message :=
  let! f := validate_message msg T_REGISTERED SPEC_registered in
  let! r := need (f_request_id f) in
  let! g := need (f_registration_id f) in
  Ok (Registered (mkRegistered r g)).

(** unregister.py:61-64 *)
Definition parse_unregister (msg : list val) : res message :=
  let! f := validate_message msg T_UNREGISTER SPEC_unregister in
  let! r := need (f_request_id f) in
  let! g := need (f_registration_id f) in
  Ok (Unregister (mkUnregister r g)).

(** unregistered.py:47-50 *)
Definition parse_unregistered (msg : list val) : res message :=
  let! f := validate_message msg T_UNREGISTERED SPEC_unregistered in
  let! r := need (f_request_id f) in
  Ok (Unregistered (mkUnregistered r)).

(** invocation.py:142-145 *)
Definition parse_invocation (msg : list val) : res message :=
  let! f := validate_message msg T_INVOCATION SPEC_invocation in
  let! r := need (f_request_id f) in
  let! g := need (f_registration_id f) in
  Ok (Invocation (mkInvocation r g (f_args f) (f_kwargs f) (dict_or_empty (f_details f)) no_payload)).

(** interrupt.py:59-62 *)
Definition parse_interrupt (msg : list val) : res message :=
  let! f := validate_message msg T_INTERRUPT SPEC_interrupt in
  let! r := need (f_request_id f) in
  Ok (Interrupt (mkInterrupt r (dict_or_empty (f_options f)))).

(** yield_.py:127-130 *)
Definition parse_yield (msg : list val) : res message :=
  let! f := validate_message msg T_YIELD SPEC_yield in
  let! r := need (f_request_id f) in
  Ok (Yield (mkYield r (f_args f) (f_kwargs f) (dict_or_empty (f_options f)) no_payload)).

Local Open Scope Z_scope.

(** serializers/serializer.py:17-75 [to_message] *)
Definition to_message (v : val) : res message :=
  match v with
  | VList message =>
      let! message_type := msg_at message 0 in
      match as_int message_type with
      | None => Raise (TypeError "invalid message type, expected an integer")
      | Some i =>
          let t := pyint_Z i in
          if t =? T_HELLO then parse_hello message
          else if t =? T_WELCOME then parse_welcome message
          else if t =? T_ABORT then parse_abort message
          else if t =? T_CHALLENGE then parse_challenge message
          else if t =? T_AUTHENTICATE then parse_authenticate message
          else if t =? T_GOODBYE then parse_goodbye message
          else if t =? T_CALL then parse_call message
          else if t =? T_INVOCATION then parse_invocation message
          else if t =? T_YIELD then parse_yield message
          else if t =? T_RESULT then parse_result message
          else if t =? T_REGISTER then parse_register message
          else if t =? T_REGISTERED then parse_registered message
          else if t =? T_UNREGISTER then parse_unregister message
          else if t =? T_UNREGISTERED then parse_unregistered message
          else if t =? T_SUBSCRIBE then parse_subscribe message
          else if t =? T_SUBSCRIBED then parse_subscribed message
          else if t =? T_UNSUBSCRIBE then parse_unsubscribe message
          else if t =? T_UNSUBSCRIBED then parse_unsubscribed message
          else if t =? T_PUBLISH then parse_publish message
          else if t =? T_PUBLISHED then parse_published message
          else if t =? T_EVENT then parse_event message
          else if t =? T_ERROR then parse_error message
          else if t =? T_CANCEL then parse_cancel message
          else if t =? T_INTERRUPT then parse_interrupt message
          else Raise (ValueError ["unknown message type"])
      end
  | _ => Raise (TypeError "invalid type, expected a list")
  end.
