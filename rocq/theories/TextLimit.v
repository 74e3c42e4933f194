(** * TextLimit: [parse] with CPython's limit on the text of an int.

    Since CPython 3.11, and in the security releases of older versions, str, format and f-strings raise ValueError for an int of more than
    4300 digits.  Parse.v leaves this out; here are the functions of wampproto/messages/util.py that write a received value into the text of
    an error, and those that use them, with the limit.  Objects of other classes ([VOther]) count as writable.  Definitions only. *)
From Coq Require Import String Ascii List ZArith Bool.
From Verif Require Import PyBase Messages Validate Parse SpecSchema.
Import ListNotations.
Local Open Scope Z_scope.

(** Whether str(v) succeeds: for a list or dict it writes all that is inside. *)
Fixpoint writable (v : val) : bool :=
  match v with
  | VInt z => Z.abs z <? 10 ^ 4300
  | VList l => forallb writable l
  | VDict d => forallb (fun kv => writable (fst kv) && writable (snd kv)) d
  | _ => true
  end.
Definition too_long : exn := ValueError ["Exceeds the limit (4300 digits) for integer string conversion"%string].
Definition write (v : val) (text : string) : res string := if writable v then Ok text else Raise too_long.

(** util.py:171-177 [validate_id_or_raise] *)
Definition validate_id_lim (value : val) (index : nat) (message : string) : res (pyint + string) :=
  match validate_int_or_raise value index message with
  | inr e => Ok (inr e)
  | inl i =>
      if (pyint_Z i <? MIN_ID) || (MAX_ID <? pyint_Z i)
      then let! t := write value (InvalidRangeError message (Z.of_nat index) MIN_ID MAX_ID (py_str value)) in Ok (inr t)
      else Ok (inl i)
  end.
(** Common shape of util.py:180-185, 222-227, 436-457 *)
Definition validate_at_lim (set : option pyint -> Fields -> Fields) : validator := fun msg index fields name =>
  let! v := msg_at msg index in
  let! r := validate_id_lim v index name in
  match r with inr e => Ok (fields, [e]) | inl a => Ok (set (Some a) fields, []) end.
(** util.py:180-185, 222-227, 436-441, 444-449, 452-457 *)
Definition validate_request_id_lim : validator := validate_at_lim set_request_id.
Definition validate_session_id_lim : validator := validate_at_lim set_session_id.
Definition validate_subscription_id_lim : validator := validate_at_lim set_subscription_id.
Definition validate_publication_id_lim : validator := validate_at_lim set_publication_id.
Definition validate_registration_id_lim : validator := validate_at_lim set_registration_id.

(** util.py:303-323 [validate_roles]: the role that is not allowed is written into the text. *)
Definition validate_roles_lim (details : dict) (index : nat) (fields : Fields) (name : string) : vres :=
  let plain := validate_roles details index fields name in
  match as_dict (sget_default "roles" VNone details) with
  | Some r => match first_bad_role r with Some k => let! _ := write k "" in Ok plain | None => Ok plain end
  | None => Ok plain
  end.
(** The other details keys write only type names. *)
Definition plainly (v : dict -> nat -> Fields -> string -> Fields * list string) d i f n : vres := Ok (v d i f n).
Fixpoint run_details_lim (vs : list (dict -> nat -> Fields -> string -> vres)) (d : dict) (index : nat) (fields : Fields) (name : string) : vres :=
  match vs with
  | [] => Ok (fields, [])
  | v :: vs' =>
      let! (f1, e1) := v d index fields name in
      let! (f2, e2) := run_details_lim vs' d index f1 name in
      Ok (f2, e1 ++ e2)
  end.
(** Common shape of util.py:382-406 and 409-433. *)
Definition validate_details_lim vs : validator := fun msg index fields name =>
  let! v := msg_at msg index in
  match validate_dict_or_raise v index name with
  | inr e => Ok (fields, [e])
  | inl d =>
      let! (f, errors) := run_details_lim vs d index fields name in
      match errors with
      | [] => Ok (set_details (Some d) f, [])
      | _ => Ok (f, errors)
      end
  end.
(** util.py:382-406 *)
Definition validate_hello_details_lim : validator :=
  validate_details_lim [plainly validate_authid; plainly validate_authrole; plainly validate_authmethods; validate_roles_lim; plainly validate_authextra].
(** util.py:409-433 *)
Definition validate_welcome_details_lim : validator :=
  validate_details_lim [validate_roles_lim; plainly validate_authid; plainly validate_authrole; plainly validate_authextra; plainly validate_welcome_authmethod].

(** util.py:86-98 [sanity_check]: a wrong type code is written into the text. *)
Definition sanity_check_lim (m : list val) (min_length max_length : nat) (expected_id : Z) (name : string) : res unit :=
  if (length m <? min_length)%nat || (max_length <? length m)%nat then sanity_check m min_length max_length expected_id name
  else
    let! message_id := msg_at m 0 in
    if negb (py_eq_int message_id expected_id) then let! _ := write message_id "" in sanity_check m min_length max_length expected_id name
    else Ok tt.
(** util.py:460-472 *)
Definition validate_message_lim (msg : list val) (type_ : Z) (s : ValidationSpec) : res Fields :=
  let! _ := sanity_check_lim msg (vs_min s) (vs_max s) type_ (vs_message s) in
  let! (f, errors) := run_spec (vs_spec s) msg empty_fields (vs_message s) in
  match errors with
  | [] => Ok f
  | _ => Raise (ValueError errors)
  end.

(** The type code and VALIDATION_SPEC of each class (hello.py:73-81, welcome.py:83-91, abort.py:57-67, and so on as in Parse.v). *)
Definition spec_of (c : mclass) : Z * ValidationSpec :=
  match c with
  | CHello => (T_HELLO, SPEC_hello)
  | CWelcome => (T_WELCOME, SPEC_welcome)
  | CAbort => (T_ABORT, SPEC_abort)
  | CChallenge => (T_CHALLENGE, SPEC_challenge)
  | CAuthenticate => (T_AUTHENTICATE, SPEC_authenticate)
  | CGoodbye => (T_GOODBYE, SPEC_goodbye)
  | CError => (T_ERROR, SPEC_error)
  | CPublish => (T_PUBLISH, SPEC_publish)
  | CPublished => (T_PUBLISHED, SPEC_published)
  | CSubscribe => (T_SUBSCRIBE, SPEC_subscribe)
  | CSubscribed => (T_SUBSCRIBED, SPEC_subscribed)
  | CUnsubscribe => (T_UNSUBSCRIBE, SPEC_unsubscribe)
  | CUnsubscribed => (T_UNSUBSCRIBED, SPEC_unsubscribed)
  | CEvent => (T_EVENT, SPEC_event)
  | CCall => (T_CALL, SPEC_call)
  | CCancel => (T_CANCEL, SPEC_cancel)
  | CResult => (T_RESULT, SPEC_result)
  | CRegister => (T_REGISTER, SPEC_register)
  | CRegistered => (T_REGISTERED, SPEC_registered)
  | CUnregister => (T_UNREGISTER, SPEC_unregister)
  | CUnregistered => (T_UNREGISTERED, SPEC_unregistered)
  | CInvocation => (T_INVOCATION, SPEC_invocation)
  | CInterrupt => (T_INTERRUPT, SPEC_interrupt)
  | CYield => (T_YIELD, SPEC_yield)
  end.
Definition spec_lim (c : mclass) : ValidationSpec :=
  match c with
  | CHello => mkSpec 3 3 "HELLO" [(1%nat, validate_realm); (2%nat, validate_hello_details_lim)]
  | CWelcome => mkSpec 3 3 "WELCOME" [(1%nat, validate_session_id_lim); (2%nat, validate_welcome_details_lim)]
  | CAbort => mkSpec 3 5 "ABORT" [(1%nat, validate_details); (2%nat, validate_reason); (3%nat, validate_args); (4%nat, validate_kwargs)]
  | CChallenge => mkSpec 3 3 "CHALLENGE" [(1%nat, validate_authmethod); (2%nat, validate_extra)]
  | CAuthenticate => mkSpec 3 3 "AUTHENTICATE" [(1%nat, validate_signature); (2%nat, validate_extra)]
  | CGoodbye => mkSpec 3 3 "GOODBYE" [(1%nat, validate_details); (2%nat, validate_reason)]
  | CError => mkSpec 5 7 "ERROR" [(1%nat, validate_message_type); (2%nat, validate_request_id_lim); (3%nat, validate_details); (4%nat, validate_uri); (5%nat, validate_args); (6%nat, validate_kwargs)]
  | CPublish => mkSpec 4 6 "PUBLISH" [(1%nat, validate_request_id_lim); (2%nat, validate_options); (3%nat, validate_topic); (4%nat, validate_args); (5%nat, validate_kwargs)]
  | CPublished => mkSpec 3 3 "PUBLISHED" [(1%nat, validate_request_id_lim); (2%nat, validate_publication_id_lim)]
  | CSubscribe => mkSpec 4 4 "SUBSCRIBE" [(1%nat, validate_request_id_lim); (2%nat, validate_options); (3%nat, validate_topic)]
  | CSubscribed => mkSpec 3 3 "SUBSCRIBED" [(1%nat, validate_request_id_lim); (2%nat, validate_subscription_id_lim)]
  | CUnsubscribe => mkSpec 3 3 "UNSUBSCRIBE" [(1%nat, validate_request_id_lim); (2%nat, validate_subscription_id_lim)]
  | CUnsubscribed => mkSpec 2 2 "UNSUBSCRIBED" [(1%nat, validate_request_id_lim)]
  | CEvent => mkSpec 4 6 "EVENT" [(1%nat, validate_subscription_id_lim); (2%nat, validate_publication_id_lim); (3%nat, validate_details); (4%nat, validate_args); (5%nat, validate_kwargs)]
  | CCall => mkSpec 4 6 "CALL" [(1%nat, validate_request_id_lim); (2%nat, validate_options); (3%nat, validate_procedure); (4%nat, validate_args); (5%nat, validate_kwargs)]
  | CCancel => mkSpec 3 3 "CANCEL" [(1%nat, validate_request_id_lim); (2%nat, validate_options)]
  | CResult => mkSpec 3 5 "RESULT" [(1%nat, validate_request_id_lim); (2%nat, validate_details); (3%nat, validate_args); (4%nat, validate_kwargs)]
  | CRegister => mkSpec 4 4 "REGISTER" [(1%nat, validate_request_id_lim); (2%nat, validate_options); (3%nat, validate_procedure)]
  | CRegistered => mkSpec 3 3 "REGISTERED" [(1%nat, validate_request_id_lim); (2%nat, validate_registration_id_lim)]
  | CUnregister => mkSpec 3 3 "UNREGISTER" [(1%nat, validate_request_id_lim); (2%nat, validate_registration_id_lim)]
  | CUnregistered => mkSpec 2 2 "UNREGISTERED" [(1%nat, validate_request_id_lim)]
  | CInvocation => mkSpec 4 6 "INVOCATION" [(1%nat, validate_request_id_lim); (2%nat, validate_registration_id_lim); (3%nat, validate_details); (4%nat, validate_args); (5%nat, validate_kwargs)]
  | CInterrupt => mkSpec 3 3 "INTERRUPT" [(1%nat, validate_request_id_lim); (2%nat, validate_options)]
  | CYield => mkSpec 3 5 "YIELD" [(1%nat, validate_request_id_lim); (2%nat, validate_options); (3%nat, validate_args); (4%nat, validate_kwargs)]
  end.

(** The [parse] class methods.  Once validation has succeeded, there is nothing left to write. *)
Definition parse_lim (c : mclass) (msg : list val) : res message :=
  let! _ := validate_message_lim msg (fst (spec_of c)) (spec_lim c) in parse_of c msg.
