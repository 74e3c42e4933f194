(** * Validate: wampproto/messages/util.py, exceptions.py, validation_spec.py.

    Definitions only.  A validator returns the updated [Fields] and the list of error strings it reports
    ([None] is [[]], a single [str] is a singleton, a [list] is itself: util.py:466-467). *)
From Coq Require Import String Ascii List ZArith Bool.
From Verif Require Import PyBase Messages.
Import ListNotations.
Local Open Scope Z_scope.

(** util.py:8-13 *)
Definition MIN_ID := 1.
Definition MAX_ID := 2 ^ 53.
Definition INT : string := "int".
Definition STRING : string := "string".
Definition LIST : string := "list".
Definition DICT : string := "dict".

(** util.py:16-26 [AllowedRoles.get_allowed_roles] *)
Definition allowed_roles : list string :=
  ["callee"; "caller"; "publisher"; "subscriber"; "dealer"; "broker"]%string.

(** [f"{AllowedRoles.get_allowed_roles()}"] *)
Definition allowed_roles_repr : string :=
  "['callee', 'caller', 'publisher', 'subscriber', 'dealer', 'broker']".

Local Notation "a +++ b" := (String.append a b) (right associativity, at level 60).

(** exceptions.py:3 [InvalidDataTypeError.format(...)] *)
Definition InvalidDataTypeError (message : string) (index : Z) (expected actual : string) : string :=
  message +++ ": value at index " +++ str_of_Z index +++ " must be of type '" +++ expected
  +++ "' but was " +++ actual.

(** exceptions.py:4 [InvalidRangeError.format(...)] *)
Definition InvalidRangeError (message : string) (index start end_ : Z) (actual : string) : string :=
  message +++ ": value at index " +++ str_of_Z index +++ " must be between '" +++ str_of_Z start
  +++ "' and '" +++ str_of_Z end_ +++ "' but was " +++ actual.

(** exceptions.py:5-7 [InvalidDetailError.format(...)] *)
Definition InvalidDetailError (message : string) (index : Z) (key expected actual : string) : string :=
  message +++ ": value at index " +++ str_of_Z index +++ " for key '" +++ key +++ "' must be of type '"
  +++ expected +++ "' but was " +++ actual.

(** util.py:101-132 [Fields] *)
Record Fields := mkFields {
  f_request_id : option pyint;
  f_uri : option string;
  f_procedure : option string;
  f_args : option (list val);
  f_kwargs : option dict;
  f_session_id : option pyint;
  f_realm : option string;
  f_authid : option string;
  f_authrole : option string;
  f_authmethod : option string;
  f_authmethods : option (list val);
  f_authextra : option dict;
  f_roles : option dict;
  f_message_type : option pyint;
  f_signature : option string;
  f_reason : option string;
  f_topic : option string;
  f_extra : option dict;
  f_options : option dict;
  f_details : option dict;
  f_subscription_id : option pyint;
  f_publication_id : option pyint;
  f_registration_id : option pyint
}.

(** util.py:102-132 [Fields()] *)
Definition empty_fields : Fields :=
  mkFields None None None None None None None None None None None None None None None None None None
           None None None None None.

(** [fields.x = v] for each attribute x. *)
Definition set_request_id v f := mkFields v (f_uri f) (f_procedure f) (f_args f) (f_kwargs f) (f_session_id f) (f_realm f) (f_authid f) (f_authrole f) (f_authmethod f) (f_authmethods f) (f_authextra f) (f_roles f) (f_message_type f) (f_signature f) (f_reason f) (f_topic f) (f_extra f) (f_options f) (f_details f) (f_subscription_id f) (f_publication_id f) (f_registration_id f).
Definition set_uri v f := mkFields (f_request_id f) v (f_procedure f) (f_args f) (f_kwargs f) (f_session_id f) (f_realm f) (f_authid f) (f_authrole f) (f_authmethod f) (f_authmethods f) (f_authextra f) (f_roles f) (f_message_type f) (f_signature f) (f_reason f) (f_topic f) (f_extra f) (f_options f) (f_details f) (f_subscription_id f) (f_publication_id f) (f_registration_id f).
Definition set_procedure v f := mkFields (f_request_id f) (f_uri f) v (f_args f) (f_kwargs f) (f_session_id f) (f_realm f) (f_authid f) (f_authrole f) (f_authmethod f) (f_authmethods f) (f_authextra f) (f_roles f) (f_message_type f) (f_signature f) (f_reason f) (f_topic f) (f_extra f) (f_options f) (f_details f) (f_subscription_id f) (f_publication_id f) (f_registration_id f).
Definition set_args v f := mkFields (f_request_id f) (f_uri f) (f_procedure f) v (f_kwargs f) (f_session_id f) (f_realm f) (f_authid f) (f_authrole f) (f_authmethod f) (f_authmethods f) (f_authextra f) (f_roles f) (f_message_type f) (f_signature f) (f_reason f) (f_topic f) (f_extra f) (f_options f) (f_details f) (f_subscription_id f) (f_publication_id f) (f_registration_id f).
Definition set_kwargs v f := mkFields (f_request_id f) (f_uri f) (f_procedure f) (f_args f) v (f_session_id f) (f_realm f) (f_authid f) (f_authrole f) (f_authmethod f) (f_authmethods f) (f_authextra f) (f_roles f) (f_message_type f) (f_signature f) (f_reason f) (f_topic f) (f_extra f) (f_options f) (f_details f) (f_subscription_id f) (f_publication_id f) (f_registration_id f).
Definition set_session_id v f := mkFields (f_request_id f) (f_uri f) (f_procedure f) (f_args f) (f_kwargs f) v (f_realm f) (f_authid f) (f_authrole f) (f_authmethod f) (f_authmethods f) (f_authextra f) (f_roles f) (f_message_type f) (f_signature f) (f_reason f) (f_topic f) (f_extra f) (f_options f) (f_details f) (f_subscription_id f) (f_publication_id f) (f_registration_id f).
Definition set_realm v f := mkFields (f_request_id f) (f_uri f) (f_procedure f) (f_args f) (f_kwargs f) (f_session_id f) v (f_authid f) (f_authrole f) (f_authmethod f) (f_authmethods f) (f_authextra f) (f_roles f) (f_message_type f) (f_signature f) (f_reason f) (f_topic f) (f_extra f) (f_options f) (f_details f) (f_subscription_id f) (f_publication_id f) (f_registration_id f).
Definition set_authid v f := mkFields (f_request_id f) (f_uri f) (f_procedure f) (f_args f) (f_kwargs f) (f_session_id f) (f_realm f) v (f_authrole f) (f_authmethod f) (f_authmethods f) (f_authextra f) (f_roles f) (f_message_type f) (f_signature f) (f_reason f) (f_topic f) (f_extra f) (f_options f) (f_details f) (f_subscription_id f) (f_publication_id f) (f_registration_id f).
Definition set_authrole v f := mkFields (f_request_id f) (f_uri f) (f_procedure f) (f_args f) (f_kwargs f) (f_session_id f) (f_realm f) (f_authid f) v (f_authmethod f) (f_authmethods f) (f_authextra f) (f_roles f) (f_message_type f) (f_signature f) (f_reason f) (f_topic f) (f_extra f) (f_options f) (f_details f) (f_subscription_id f) (f_publication_id f) (f_registration_id f).
Definition set_authmethod v f := mkFields (f_request_id f) (f_uri f) (f_procedure f) (f_args f) (f_kwargs f) (f_session_id f) (f_realm f) (f_authid f) (f_authrole f) v (f_authmethods f) (f_authextra f) (f_roles f) (f_message_type f) (f_signature f) (f_reason f) (f_topic f) (f_extra f) (f_options f) (f_details f) (f_subscription_id f) (f_publication_id f) (f_registration_id f).
Definition set_authmethods v f := mkFields (f_request_id f) (f_uri f) (f_procedure f) (f_args f) (f_kwargs f) (f_session_id f) (f_realm f) (f_authid f) (f_authrole f) (f_authmethod f) v (f_authextra f) (f_roles f) (f_message_type f) (f_signature f) (f_reason f) (f_topic f) (f_extra f) (f_options f) (f_details f) (f_subscription_id f) (f_publication_id f) (f_registration_id f).
Definition set_authextra v f := mkFields (f_request_id f) (f_uri f) (f_procedure f) (f_args f) (f_kwargs f) (f_session_id f) (f_realm f) (f_authid f) (f_authrole f) (f_authmethod f) (f_authmethods f) v (f_roles f) (f_message_type f) (f_signature f) (f_reason f) (f_topic f) (f_extra f) (f_options f) (f_details f) (f_subscription_id f) (f_publication_id f) (f_registration_id f).
Definition set_roles v f := mkFields (f_request_id f) (f_uri f) (f_procedure f) (f_args f) (f_kwargs f) (f_session_id f) (f_realm f) (f_authid f) (f_authrole f) (f_authmethod f) (f_authmethods f) (f_authextra f) v (f_message_type f) (f_signature f) (f_reason f) (f_topic f) (f_extra f) (f_options f) (f_details f) (f_subscription_id f) (f_publication_id f) (f_registration_id f).
Definition set_message_type v f := mkFields (f_request_id f) (f_uri f) (f_procedure f) (f_args f) (f_kwargs f) (f_session_id f) (f_realm f) (f_authid f) (f_authrole f) (f_authmethod f) (f_authmethods f) (f_authextra f) (f_roles f) v (f_signature f) (f_reason f) (f_topic f) (f_extra f) (f_options f) (f_details f) (f_subscription_id f) (f_publication_id f) (f_registration_id f).
Definition set_signature v f := mkFields (f_request_id f) (f_uri f) (f_procedure f) (f_args f) (f_kwargs f) (f_session_id f) (f_realm f) (f_authid f) (f_authrole f) (f_authmethod f) (f_authmethods f) (f_authextra f) (f_roles f) (f_message_type f) v (f_reason f) (f_topic f) (f_extra f) (f_options f) (f_details f) (f_subscription_id f) (f_publication_id f) (f_registration_id f).
Definition set_reason v f := mkFields (f_request_id f) (f_uri f) (f_procedure f) (f_args f) (f_kwargs f) (f_session_id f) (f_realm f) (f_authid f) (f_authrole f) (f_authmethod f) (f_authmethods f) (f_authextra f) (f_roles f) (f_message_type f) (f_signature f) v (f_topic f) (f_extra f) (f_options f) (f_details f) (f_subscription_id f) (f_publication_id f) (f_registration_id f).
Definition set_topic v f := mkFields (f_request_id f) (f_uri f) (f_procedure f) (f_args f) (f_kwargs f) (f_session_id f) (f_realm f) (f_authid f) (f_authrole f) (f_authmethod f) (f_authmethods f) (f_authextra f) (f_roles f) (f_message_type f) (f_signature f) (f_reason f) v (f_extra f) (f_options f) (f_details f) (f_subscription_id f) (f_publication_id f) (f_registration_id f).
Definition set_extra v f := mkFields (f_request_id f) (f_uri f) (f_procedure f) (f_args f) (f_kwargs f) (f_session_id f) (f_realm f) (f_authid f) (f_authrole f) (f_authmethod f) (f_authmethods f) (f_authextra f) (f_roles f) (f_message_type f) (f_signature f) (f_reason f) (f_topic f) v (f_options f) (f_details f) (f_subscription_id f) (f_publication_id f) (f_registration_id f).
Definition set_options v f := mkFields (f_request_id f) (f_uri f) (f_procedure f) (f_args f) (f_kwargs f) (f_session_id f) (f_realm f) (f_authid f) (f_authrole f) (f_authmethod f) (f_authmethods f) (f_authextra f) (f_roles f) (f_message_type f) (f_signature f) (f_reason f) (f_topic f) (f_extra f) v (f_details f) (f_subscription_id f) (f_publication_id f) (f_registration_id f).
Definition set_details v f := mkFields (f_request_id f) (f_uri f) (f_procedure f) (f_args f) (f_kwargs f) (f_session_id f) (f_realm f) (f_authid f) (f_authrole f) (f_authmethod f) (f_authmethods f) (f_authextra f) (f_roles f) (f_message_type f) (f_signature f) (f_reason f) (f_topic f) (f_extra f) (f_options f) v (f_subscription_id f) (f_publication_id f) (f_registration_id f).
Definition set_subscription_id v f := mkFields (f_request_id f) (f_uri f) (f_procedure f) (f_args f) (f_kwargs f) (f_session_id f) (f_realm f) (f_authid f) (f_authrole f) (f_authmethod f) (f_authmethods f) (f_authextra f) (f_roles f) (f_message_type f) (f_signature f) (f_reason f) (f_topic f) (f_extra f) (f_options f) (f_details f) v (f_publication_id f) (f_registration_id f).
Definition set_publication_id v f := mkFields (f_request_id f) (f_uri f) (f_procedure f) (f_args f) (f_kwargs f) (f_session_id f) (f_realm f) (f_authid f) (f_authrole f) (f_authmethod f) (f_authmethods f) (f_authextra f) (f_roles f) (f_message_type f) (f_signature f) (f_reason f) (f_topic f) (f_extra f) (f_options f) (f_details f) (f_subscription_id f) v (f_registration_id f).
Definition set_registration_id v f := mkFields (f_request_id f) (f_uri f) (f_procedure f) (f_args f) (f_kwargs f) (f_session_id f) (f_realm f) (f_authid f) (f_authrole f) (f_authmethod f) (f_authmethods f) (f_authextra f) (f_roles f) (f_message_type f) (f_signature f) (f_reason f) (f_topic f) (f_extra f) (f_options f) (f_details f) (f_subscription_id f) (f_publication_id f) v.

(** [msg[index]] *)
Definition msg_at (msg : list val) (index : nat) : res val :=
  match nth_error msg index with Some v => Ok v | None => Raise IndexError end.

Definition vres := res (Fields * list string).
Definition validator := list val -> nat -> Fields -> string -> vres.

(** util.py:135-141 [validate_int_or_raise]: returns the int object or the error string. *)
Definition validate_int_or_raise (value : val) (index : nat) (message : string) : pyint + string :=
  match as_int value with
  | Some i => inl i
  | None => inr (InvalidDataTypeError message (Z.of_nat index) INT (type_name value))
  end.

(** util.py:144-150 [validate_string_or_raise] *)
Definition validate_string_or_raise (value : val) (index : nat) (message : string) : string + string :=
  match as_str value with
  | Some s => inl s
  | None => inr (InvalidDataTypeError message (Z.of_nat index) STRING (type_name value))
  end.

(** util.py:153-159 [validate_list_or_raise] *)
Definition validate_list_or_raise (value : val) (index : nat) (message : string) : list val + string :=
  match as_list value with
  | Some l => inl l
  | None => inr (InvalidDataTypeError message (Z.of_nat index) LIST (type_name value))
  end.

(** util.py:162-168 [validate_dict_or_raise] *)
Definition validate_dict_or_raise (value : val) (index : nat) (message : string) : dict + string :=
  match as_dict value with
  | Some d => inl d
  | None => inr (InvalidDataTypeError message (Z.of_nat index) DICT (type_name value))
  end.

(** util.py:171-177 [validate_id_or_raise] *)
Definition validate_id_or_raise (value : val) (index : nat) (message : string) : pyint + string :=
  match validate_int_or_raise value index message with
  | inr e => inr e
  | inl i =>
      if (pyint_Z i <? MIN_ID) || (MAX_ID <? pyint_Z i)
      then inr (InvalidRangeError message (Z.of_nat index) MIN_ID MAX_ID (py_str value))
      else inl i
  end.

(** Common shape of util.py:180-201, 222-235, 260-265, 326-379, 436-457: check [msg[index]] with [chk];
    on success store it with [set]. *)
Definition validate_at {A} (chk : val -> nat -> string -> A + string) (set : option A -> Fields -> Fields)
  : validator := fun msg index fields name =>
  let! v := msg_at msg index in
  match chk v index name with
  | inr e => Ok (fields, [e])
  | inl a => Ok (set (Some a) fields, [])
  end.

(** util.py:180-185 *)
Definition validate_request_id : validator := validate_at validate_id_or_raise set_request_id.
(** util.py:188-193 *)
Definition validate_uri : validator := validate_at validate_string_or_raise set_uri.
(** util.py:196-201 *)
Definition validate_procedure : validator := validate_at validate_string_or_raise set_procedure.
(** util.py:204-210 *)
Definition validate_args : validator := fun msg index fields name =>
  if (index <? length msg)%nat then validate_at validate_list_or_raise set_args msg index fields name
  else Ok (fields, []).
(** util.py:213-219 *)
Definition validate_kwargs : validator := fun msg index fields name =>
  if (index <? length msg)%nat then validate_at validate_dict_or_raise set_kwargs msg index fields name
  else Ok (fields, []).
(** util.py:222-227 *)
Definition validate_session_id : validator := validate_at validate_id_or_raise set_session_id.
(** util.py:230-235 *)
Definition validate_realm : validator := validate_at validate_string_or_raise set_realm.
(** util.py:260-265 *)
Definition validate_authmethod : validator := validate_at validate_string_or_raise set_authmethod.
(** util.py:326-331 *)
Definition validate_message_type : validator := validate_at validate_int_or_raise set_message_type.
(** util.py:334-339 *)
Definition validate_signature : validator := validate_at validate_string_or_raise set_signature.
(** util.py:342-347 *)
Definition validate_reason : validator := validate_at validate_string_or_raise set_reason.
(** util.py:350-355 *)
Definition validate_topic : validator := validate_at validate_string_or_raise set_topic.
(** util.py:358-363 *)
Definition validate_extra : validator := validate_at validate_dict_or_raise set_extra.
(** util.py:366-371 *)
Definition validate_options : validator := validate_at validate_dict_or_raise set_options.
(** util.py:374-379 *)
Definition validate_details : validator := validate_at validate_dict_or_raise set_details.
(** util.py:436-441 *)
Definition validate_subscription_id : validator := validate_at validate_id_or_raise set_subscription_id.
(** util.py:444-449 *)
Definition validate_publication_id : validator := validate_at validate_id_or_raise set_publication_id.
(** util.py:452-457 *)
Definition validate_registration_id : validator := validate_at validate_id_or_raise set_registration_id.

(** Common shape of the optional details keys, util.py:238-257, 268-300: absent or [None] stores [None];
    otherwise the value must satisfy [chk]. *)
Definition validate_detail {A} (key : string) (expected : string) (as_ : val -> option A)
  (set : option A -> Fields -> Fields)
  (details : dict) (index : nat) (fields : Fields) (name : string) : Fields * list string :=
  match sget_default key VNone details with
  | VNone => (set None fields, [])
  | v => match as_ v with
         | Some a => (set (Some a) fields, [])
         | None => (fields, [InvalidDetailError name (Z.of_nat index) key expected (type_name v)])
         end
  end.

(** util.py:238-246 *)
Definition validate_authid := validate_detail "authid" STRING as_str set_authid.
(** util.py:249-257 *)
Definition validate_authrole := validate_detail "authrole" STRING as_str set_authrole.
(** util.py:268-277 *)
Definition validate_authmethods := validate_detail "authmethods" LIST as_list set_authmethods.
(** util.py:280-288 *)
Definition validate_welcome_authmethod := validate_detail "authmethod" STRING as_str set_authmethod.
(** util.py:291-300 *)
Definition validate_authextra := validate_detail "authextra" DICT as_dict set_authextra.

(** util.py:315-320: the first key that is not an allowed role. *)
Fixpoint first_bad_role (d : dict) : option val :=
  match d with
  | [] => None
  | (k, _) :: d' =>
      match k with
      | VStr s => if existsb (String.eqb s) allowed_roles then first_bad_role d' else Some k
      | _ => Some k
      end
  end.

(** util.py:303-323 *)
Definition validate_roles (details : dict) (index : nat) (fields : Fields) (name : string)
  : Fields * list string :=
  let roles := sget_default "roles" VNone details in
  match as_dict roles with
  | None => (fields, [InvalidDetailError name (Z.of_nat index) "roles" DICT (type_name roles)])
  | Some [] => (fields, [name +++ ": value at index " +++ str_of_Z (Z.of_nat index)
                         +++ " for roles key must be in " +++ allowed_roles_repr +++ " but was empty"])
  | Some r =>
      match first_bad_role r with
      | Some k => (fields, [name +++ ": value at index " +++ str_of_Z (Z.of_nat index)
                            +++ " for roles key must be in " +++ allowed_roles_repr +++ " but was " +++ py_str k])
      | None => (set_roles (Some r) fields, [])
      end
  end.

(** Run details-key validators in order, concatenating their errors. *)
Fixpoint run_details (vs : list (dict -> nat -> Fields -> string -> Fields * list string))
  (d : dict) (index : nat) (fields : Fields) (name : string) : Fields * list string :=
  match vs with
  | [] => (fields, [])
  | v :: vs' =>
      let (f1, e1) := v d index fields name in
      let (f2, e2) := run_details vs' d index f1 name in
      (f2, e1 ++ e2)
  end.

(** Common shape of util.py:382-406 and 409-433. *)
Definition validate_details_with vs : validator := fun msg index fields name =>
  let! v := msg_at msg index in
  match validate_dict_or_raise v index name with
  | inr e => Ok (fields, [e])
  | inl d =>
      let (f, errors) := run_details vs d index fields name in
      match errors with
      | [] => Ok (set_details (Some d) f, [])
      | _ => Ok (f, errors)
      end
  end.

(** util.py:382-406 *)
Definition validate_hello_details : validator :=
  validate_details_with [validate_authid; validate_authrole; validate_authmethods; validate_roles; validate_authextra].
(** util.py:409-433 *)
Definition validate_welcome_details : validator :=
  validate_details_with [validate_roles; validate_authid; validate_authrole; validate_authextra; validate_welcome_authmethod].

(** validation_spec.py:4-9 *)
Record ValidationSpec := mkSpec {
  vs_min : nat; vs_max : nat; vs_message : string; vs_spec : list (nat * validator) }.

(** util.py:86-98 [sanity_check] on a list (that the argument is a list is checked by the caller's type). *)
Definition sanity_check (m : list val) (min_length max_length : nat) (expected_id : Z) (name : string) : res unit :=
  if (length m <? min_length)%nat then
    Raise (ValueError ["invalid message length " +++ str_of_Z (Z.of_nat (length m)) +++ ", must be at least "
                       +++ str_of_Z (Z.of_nat min_length)])
  else if (max_length <? length m)%nat then
    Raise (ValueError ["invalid message length " +++ str_of_Z (Z.of_nat (length m)) +++ ", must be at most "
                       +++ str_of_Z (Z.of_nat max_length)])
  else
    let! message_id := msg_at m 0 in
    if negb (py_eq_int message_id expected_id) then
      Raise (ValueError ["invalid message id " +++ py_str message_id +++ " for " +++ name +++ ", expected "
                         +++ str_of_Z expected_id])
    else Ok tt.

(** util.py:463-467: the loop over [val_spec.spec.items()]. *)
Fixpoint run_spec (spec : list (nat * validator)) (msg : list val) (f : Fields) (name : string) : vres :=
  match spec with
  | [] => Ok (f, [])
  | (idx, func) :: spec' =>
      let! (f1, e1) := func msg idx f name in
      let! (f2, e2) := run_spec spec' msg f1 name in
      Ok (f2, e1 ++ e2)
  end.

(** util.py:460-472 *)
Definition validate_message (msg : list val) (type_ : Z) (s : ValidationSpec) : res Fields :=
  let! _ := sanity_check msg (vs_min s) (vs_max s) type_ (vs_message s) in
  let! (f, errors) := run_spec (vs_spec s) msg empty_fields (vs_message s) in
  match errors with
  | [] => Ok f
  | _ => Raise (ValueError errors)
  end.
