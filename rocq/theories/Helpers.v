(** * Helpers: the remaining public functions: util.py:29-83, types.py, exception.py, and utcnow, key generation and
    session ids.  Definitions only. *)
From Coq Require Import String Ascii List ZArith Bool.
From Verif Require Import PyBase Messages Validate IdGen Encoding Auth Joiner Broker.
Import ListNotations.
Local Open Scope Z_scope.
Local Notation "a +++ b" := (String.append a b) (right associativity, at level 60).

(** ** messages/util.py *)

(** Common shape of util.py:29-36, 39-46, 49-56. *)
Definition text_or_raise (cls what : string) (v : val) (error_msg : string) : res val :=
  match v with
  | VNone => Raise (LibError cls (what +++ " cannot be null for " +++ error_msg))
  | _ => match as_str v with
         | None => Raise (LibError cls (what +++ " must be of type string for " +++ error_msg))
         | Some _ => Ok v
         end
  end.
(** util.py:29-36 *)
Definition validate_realm_or_raise : val -> string -> res val := text_or_raise "InvalidRealmError" "realm".
(** util.py:39-46 *)
Definition validate_uri_or_raise : val -> string -> res val := text_or_raise "InvalidUriError" "uri".
(** util.py:49-56 *)
Definition validate_procedure_or_raise : val -> string -> res val := text_or_raise "InvalidUriError" "procedure".

(** util.py:65-67: the first key that is not a str. *)
Fixpoint bad_key (d : dict) : option val :=
  match d with
  | [] => None
  | (k, _) :: d' => match as_str k with None => Some k | Some _ => bad_key d' end
  end.

(** util.py:59-69 *)
Definition validate_details_or_raise (details : val) (error_msg : string) (field : option string) : res val :=
  let field := match field with None => "details"%string | Some f => f end in
  match as_dict details with
  | None => Raise (LibError "InvalidDetailsError" (field +++ " must be of type dictionary for " +++ error_msg))
  | Some d =>
      match bad_key d with
      | Some k => Raise (LibError "InvalidDetailsError"
                           ("invalid type for key '" +++ py_str k +++ "' in extra details for " +++ error_msg))
      | None => Ok details
      end
  end.

(** util.py:72-83 *)
Definition validate_session_id_or_raise (session_id : val) (error_msg : string) (field : option string) : res val :=
  match as_int session_id with
  | None => Raise (LibError "ProtocolError" ("session ID must be an integer for " +++ error_msg))
  | Some i =>
      if (pyint_Z i <? 0) || (9007199254740992 <? pyint_Z i) then
        let field := match field with None => "Session ID"%string | Some f => f end in
        Raise (LibError "ProtocolError" ("invalid " +++ field +++ " value for " +++ error_msg))
      else Ok session_id
  end.

(** util.py:86-98 on any object ([Validate.sanity_check] is the part for lists). *)
Definition sanity_check_object (m : val) (min_length max_length : nat) (expected_id : Z) (name : string) : res unit :=
  match as_list m with
  | None => Raise (ValueError ["invalid message type " +++ type_name m +++ " for " +++ name +++ ", type should be a list"])
  | Some l => sanity_check l min_length max_length expected_id name
  end.

(** The class method [parse] of every message class on any object: it starts with
    [util.validate_message(msg, ...)] (hello.py:104, ...), which starts with [sanity_check] (util.py:461). *)
Definition parse_object (parse : list val -> res message) (name : string) (m : val) : res message :=
  match as_list m with
  | None => Raise (ValueError ["invalid message type " +++ type_name m +++ " for " +++ name +++ ", type should be a list"])
  | Some l => parse l
  end.

(** ** types.py *)

(** [None], a [str], or the like compare as Python does; both sides come from these fields. *)
Definition opt_eqb (a b : option string) : bool :=
  match a, b with Some x, Some y => String.eqb x y | None, None => true | _, _ => false end.
(** What [__eq__] may be given. *)
Inductive pyobj := ODetails (d : details) | OValue (v : val).
(** types.py:29-38 *)
Definition details_eq (d : details) (x : pyobj) : bool :=
  match x with
  | OValue _ => false
  | ODetails d' =>
      (pyint_Z (det_session d) =? pyint_Z (det_session d')) && String.eqb (det_realm d) (det_realm d') &&
      opt_eqb (det_authid d) (det_authid d') && opt_eqb (det_authrole d) (det_authrole d')
  end.

(** ** exception.py *)

(** [", ".join(l)] *)
Fixpoint join (l : list string) : string :=
  match l with [] => "" | [x] => x | x :: l' => x +++ ", " +++ join l' end.
(** exception.py:12-23; [str] is Python's str(). *)
Definition application_error_str (str : val -> string) (message : string) (args : option (list val))
  (kwargs : option dict) : string :=
  let err := message in
  let err := match args with
             | Some ((_ :: _) as a) => err +++ (": " +++ join (map str a))
             | _ => err
             end in
  match kwargs with
  | Some ((_ :: _) as k) => err +++ (": " +++ join (map (fun kv => str (fst kv) +++ "=" +++ str (snd kv)) k))
  | _ => err
  end.

(** ** auth/wampcra.py:49-51 *)
Record datetime := mkTime { t_year : Z; t_month : Z; t_day : Z; t_hour : Z; t_minute : Z; t_second : Z; t_micro : Z }.
(** [n] decimal digits. *)
Fixpoint digits (n : nat) (z : Z) : string :=
  match n with
  | O => ""
  | S n' => digits n' (z / 10) +++ String (ascii_of_nat (48 + Z.to_nat (z mod 10))) ""
  end.
(** [ts.strftime('%Y-%m-%dT%H:%M:%S.%f')] for a year of four digits. *)
Definition strftime (t : datetime) : string :=
  digits 4 (t_year t) +++ "-" +++ digits 2 (t_month t) +++ "-" +++ digits 2 (t_day t) +++ "T" +++
  digits 2 (t_hour t) +++ ":" +++ digits 2 (t_minute t) +++ ":" +++ digits 2 (t_second t) +++ "." +++ digits 6 (t_micro t).
(** [s[:-3]] *)
Definition but_last3 (s : string) : string := String.substring 0 (String.length s - 3) s.
(** wampcra.py:49-51; [t] is [datetime.datetime.utcnow()]. *)
Definition utcnow (t : datetime) : string := but_last3 (strftime t) +++ "Z".

(** ** auth/cryptosign.py:53-60; [seed] is what [SigningKey.generate()] draws. *)
Definition generate_cryptosign_keypair (cr : crypto) (seed : bytes) : string * string :=
  (decode_str (hexlify (ed_public cr seed)), decode_str (hexlify seed)).

(** ** Option dicts are objects (call.py:125-130, invocation.py:124-129, result.py:101-106, yield_.py:101-106)

    The options (details) getter of a message with a payload serializer writes into the dict the message was built
    with.  Here dicts live in a heap and a message object is the heap address of its dict with the rest of it.
    Messages without such a dict (and HELLO and WELCOME, which have others) ignore the address. *)
Definition optmsg := (nat * message)%type.
Definition bin_of (m : message) : binpayload :=
  match m with
  | Call m => ca_bin m | Invocation m => iv_bin m | Result m => re_bin m | Yield m => yi_bin m
  | _ => no_payload
  end.
(** The message with [d] as its options, details or extra dict. *)
Definition with_opts (m : message) (d : dict) : message :=
  match m with
  | Call m => Call (mkCall (ca_request m) (ca_procedure m) (ca_args m) (ca_kwargs m) d (ca_bin m))
  | Invocation m => Invocation (mkInvocation (iv_request m) (iv_registration m) (iv_args m) (iv_kwargs m) d (iv_bin m))
  | Result m => Result (mkResult (re_request m) (re_args m) (re_kwargs m) d (re_bin m))
  | Yield m => Yield (mkYield (yi_request m) (yi_args m) (yi_kwargs m) d (yi_bin m))
  | Publish m => Publish (mkPublish (pb_request m) (pb_topic m) (pb_args m) (pb_kwargs m) d)
  | Event m => Event (mkEvent (ev_subscription m) (ev_publication m) (ev_args m) (ev_kwargs m) d)
  | Error m => Error (mkError (er_type m) (er_request m) (er_uri m) (er_args m) (er_kwargs m) d)
  | Subscribe m => Subscribe (mkSubscribe (su_request m) (su_topic m) d)
  | Register m => Register (mkRegister (rg_request m) (rg_procedure m) d)
  | Cancel m => Cancel (mkCancel (cn_request m) d)
  | Interrupt m => Interrupt (mkInterrupt (it_request m) d)
  | Goodbye m => Goodbye (mkGoodbye d (gb_reason m))
  | Abort m => Abort (mkAbort d (ab_reason m) (ab_args m) (ab_kwargs m))
  | Challenge m => Challenge (mkChallenge (ch_method m) d)
  | Authenticate m => Authenticate (mkAuthenticate (au_signature m) d)
  | m => m
  end.
Definition dict_at (h : list dict) (a : nat) : dict := match nth_error h a with Some d => d | None => [] end.
(** [m.marshal()] with its write. *)
Definition marshal_object (h : list dict) (o : optmsg) : list dict * list val :=
  let d := dict_at h (fst o) in
  (put h (fst o) (with_serializer d (bin_of (snd o))), marshal (with_opts (snd o) d)).
(** [os] marshalled one after the other. *)
Fixpoint marshal_objects (h : list dict) (os : list optmsg) : list dict * list (list val) :=
  match os with
  | [] => (h, [])
  | o :: os' =>
      let (h1, l) := marshal_object h o in
      let (h2, ls) := marshal_objects h1 os' in
      (h2, l :: ls)
  end.
