(** * SpecSchema: the WAMP message schema, stated independently of the validators.

    Sources: the WAMP specification as reflected by the documented message shapes; the error texts are those
    of messages/exceptions.py:3-7 and util.py:311-320. *)
From Coq Require Import String Ascii List ZArith Bool DecimalString.
From Verif Require Import PyBase Messages Parse.
Import ListNotations.
Local Open Scope string_scope.
Local Open Scope Z_scope.
Local Open Scope list_scope.

(** What a position of a message may hold. *)
Inductive kind := KId | KInt | KStr | KDict | KList | KHelloDetails | KWelcomeDetails.

Record schema := mkSchema {
  sc_name : string;
  sc_code : Z;
  sc_req : list (string * kind);   (* positions 1.. that must be present: attribute name and kind *)
  sc_opt : list (string * kind)    (* trailing positions that may be absent *)
}.

Inductive mclass :=
| CHello | CWelcome | CAbort | CChallenge | CAuthenticate | CGoodbye | CError | CPublish | CPublished
| CSubscribe | CSubscribed | CUnsubscribe | CUnsubscribed | CEvent | CCall | CCancel | CResult | CRegister
| CRegistered | CUnregister | CUnregistered | CInvocation | CInterrupt | CYield.

Definition all_classes : list mclass :=
  [CHello; CWelcome; CAbort; CChallenge; CAuthenticate; CGoodbye; CError; CPublish; CPublished; CSubscribe;
   CSubscribed; CUnsubscribe; CUnsubscribed; CEvent; CCall; CCancel; CResult; CRegister; CRegistered;
   CUnregister; CUnregistered; CInvocation; CInterrupt; CYield].

Definition args_kwargs : list (string * kind) := [("args", KList); ("kwargs", KDict)].

Definition schema_of (c : mclass) : schema :=
  match c with
  | CHello => mkSchema "HELLO" 1 [("realm", KStr); ("details", KHelloDetails)] []
  | CWelcome => mkSchema "WELCOME" 2 [("session_id", KId); ("details", KWelcomeDetails)] []
  | CAbort => mkSchema "ABORT" 3 [("details", KDict); ("reason", KStr)] args_kwargs
  | CChallenge => mkSchema "CHALLENGE" 4 [("authmethod", KStr); ("extra", KDict)] []
  | CAuthenticate => mkSchema "AUTHENTICATE" 5 [("signature", KStr); ("extra", KDict)] []
  | CGoodbye => mkSchema "GOODBYE" 6 [("details", KDict); ("reason", KStr)] []
  | CError => mkSchema "ERROR" 8
      [("message_type", KInt); ("request_id", KId); ("details", KDict); ("uri", KStr)] args_kwargs
  | CPublish => mkSchema "PUBLISH" 16 [("request_id", KId); ("options", KDict); ("topic", KStr)] args_kwargs
  | CPublished => mkSchema "PUBLISHED" 17 [("request_id", KId); ("publication_id", KId)] []
  | CSubscribe => mkSchema "SUBSCRIBE" 32 [("request_id", KId); ("options", KDict); ("topic", KStr)] []
  | CSubscribed => mkSchema "SUBSCRIBED" 33 [("request_id", KId); ("subscription_id", KId)] []
  | CUnsubscribe => mkSchema "UNSUBSCRIBE" 34 [("request_id", KId); ("subscription_id", KId)] []
  | CUnsubscribed => mkSchema "UNSUBSCRIBED" 35 [("request_id", KId)] []
  | CEvent => mkSchema "EVENT" 36
      [("subscription_id", KId); ("publication_id", KId); ("details", KDict)] args_kwargs
  | CCall => mkSchema "CALL" 48 [("request_id", KId); ("options", KDict); ("procedure", KStr)] args_kwargs
  | CCancel => mkSchema "CANCEL" 49 [("request_id", KId); ("options", KDict)] []
  | CResult => mkSchema "RESULT" 50 [("request_id", KId); ("details", KDict)] args_kwargs
  | CRegister => mkSchema "REGISTER" 64 [("request_id", KId); ("options", KDict); ("procedure", KStr)] []
  | CRegistered => mkSchema "REGISTERED" 65 [("request_id", KId); ("registration_id", KId)] []
  | CUnregister => mkSchema "UNREGISTER" 66 [("request_id", KId); ("registration_id", KId)] []
  | CUnregistered => mkSchema "UNREGISTERED" 67 [("request_id", KId)] []
  | CInvocation => mkSchema "INVOCATION" 68
      [("request_id", KId); ("registration_id", KId); ("details", KDict)] args_kwargs
  | CInterrupt => mkSchema "INTERRUPT" 69 [("request_id", KId); ("options", KDict)] []
  | CYield => mkSchema "YIELD" 70 [("request_id", KId); ("options", KDict)] args_kwargs
  end.

(** The [parse] class method of each class. *)
Definition parse_of (c : mclass) : list val -> res message :=
  match c with
  | CHello => parse_hello | CWelcome => parse_welcome | CAbort => parse_abort | CChallenge => parse_challenge
  | CAuthenticate => parse_authenticate | CGoodbye => parse_goodbye | CError => parse_error
  | CPublish => parse_publish | CPublished => parse_published | CSubscribe => parse_subscribe
  | CSubscribed => parse_subscribed | CUnsubscribe => parse_unsubscribe | CUnsubscribed => parse_unsubscribed
  | CEvent => parse_event | CCall => parse_call | CCancel => parse_cancel | CResult => parse_result
  | CRegister => parse_register | CRegistered => parse_registered | CUnregister => parse_unregister
  | CUnregistered => parse_unregistered | CInvocation => parse_invocation | CInterrupt => parse_interrupt
  | CYield => parse_yield
  end.

Definition class_of (m : message) : mclass :=
  match m with
  | Hello _ => CHello | Welcome _ => CWelcome | Abort _ => CAbort | Challenge _ => CChallenge
  | Authenticate _ => CAuthenticate | Goodbye _ => CGoodbye | Error _ => CError | Publish _ => CPublish
  | Published _ => CPublished | Subscribe _ => CSubscribe | Subscribed _ => CSubscribed
  | Unsubscribe _ => CUnsubscribe | Unsubscribed _ => CUnsubscribed | Event _ => CEvent | Call _ => CCall
  | Cancel _ => CCancel | Result _ => CResult | Register _ => CRegister | Registered _ => CRegistered
  | Unregister _ => CUnregister | Unregistered _ => CUnregistered | Invocation _ => CInvocation
  | Interrupt _ => CInterrupt | Yield _ => CYield
  end.

(** ** Well-typed positions *)

(** An id: an int in 1..2**53.  Python counts [True] as the int 1 (see C09). *)
Definition fits_id (v : val) : Prop := (exists z, v = VInt z /\ 1 <= z <= 2 ^ 53) \/ v = VBool true.

Definition roles_known : list string := ["callee"; "caller"; "publisher"; "subscriber"; "dealer"; "broker"].

Definition fits_roles (d : dict) : Prop :=
  exists r, sget "roles" d = Some (VDict r) /\ r <> [] /\
            forall k v, In (k, v) r -> exists s, k = VStr s /\ In s roles_known.

(** An optional entry: absent, [None], or satisfying [P]. *)
Definition fits_entry (P : val -> Prop) (key : string) (d : dict) : Prop :=
  sget key d = None \/ sget key d = Some VNone \/ exists v, sget key d = Some v /\ P v.

Definition IsStr (v : val) := exists s, v = VStr s.
Definition IsList (v : val) := exists l, v = VList l.
Definition IsDict (v : val) := exists d, v = VDict d.

Definition fits (k : kind) (v : val) : Prop :=
  match k with
  | KId => fits_id v
  | KInt => (exists z, v = VInt z) \/ (exists b, v = VBool b)
  | KStr => IsStr v
  | KDict => IsDict v
  | KList => IsList v
  | KHelloDetails => exists d, v = VDict d /\ fits_roles d /\ fits_entry IsStr "authid" d
      /\ fits_entry IsStr "authrole" d /\ fits_entry IsList "authmethods" d /\ fits_entry IsDict "authextra" d
  | KWelcomeDetails => exists d, v = VDict d /\ fits_roles d /\ fits_entry IsStr "authid" d
      /\ fits_entry IsStr "authrole" d /\ fits_entry IsStr "authmethod" d /\ fits_entry IsDict "authextra" d
  end.

(** A list conforms to the schema of class [c]. *)
Definition conforms (c : mclass) (l : list val) : Prop :=
  exists t req opt, l = t :: req ++ opt
    /\ py_eq_int t (sc_code (schema_of c)) = true
    /\ Forall2 fits (map snd (sc_req (schema_of c))) req
    /\ (length opt <= length (sc_opt (schema_of c)))%nat
    /\ Forall2 fits (firstn (length opt) (map snd (sc_opt (schema_of c)))) opt.

(** The length and head part of conformance alone. *)
Definition length_ok (c : mclass) (l : list val) : Prop :=
  (1 + length (sc_req (schema_of c)) <= length l
   /\ length l <= 1 + length (sc_req (schema_of c)) + length (sc_opt (schema_of c)))%nat.
Definition head_ok (c : mclass) (l : list val) : Prop :=
  exists t rest, l = t :: rest /\ py_eq_int t (sc_code (schema_of c)) = true.

(** ** Attributes: [getattr(m, name)] on a message object. *)
Definition ostr (o : option string) : val := match o with Some s => VStr s | None => VNone end.
Definition olist (o : option (list val)) : val := match o with Some s => VList s | None => VNone end.
Definition odict (o : option dict) : val := match o with Some s => VDict s | None => VNone end.

Definition attrs (m : message) : list (string * val) :=
  match m with
  | Hello m => [("realm", VStr (he_realm m)); ("roles", VDict (he_roles m)); ("authid", ostr (he_authid m));
                ("authmethods", olist (he_authmethods m)); ("authextra", odict (he_authextra m))]
  | Welcome m => [("session_id", pyint_val (we_session m)); ("roles", VDict (we_roles m));
                  ("authid", ostr (we_authid m)); ("authrole", ostr (we_authrole m));
                  ("authmethod", ostr (we_authmethod m)); ("authextra", VDict (we_authextra m))]
  | Abort m => [("details", VDict (ab_details m)); ("reason", VStr (ab_reason m)); ("args", olist (ab_args m));
                ("kwargs", odict (ab_kwargs m))]
  | Challenge m => [("authmethod", VStr (ch_method m)); ("extra", VDict (ch_extra m))]
  | Authenticate m => [("signature", VStr (au_signature m)); ("extra", VDict (au_extra m))]
  | Goodbye m => [("details", VDict (gb_details m)); ("reason", VStr (gb_reason m))]
  | Error m => [("message_type", pyint_val (er_type m)); ("request_id", pyint_val (er_request m));
                ("details", VDict (er_details m)); ("uri", VStr (er_uri m)); ("args", olist (er_args m));
                ("kwargs", odict (er_kwargs m))]
  | Publish m => [("request_id", pyint_val (pb_request m)); ("options", VDict (pb_options m));
                  ("topic", VStr (pb_topic m)); ("args", olist (pb_args m)); ("kwargs", odict (pb_kwargs m))]
  | Published m => [("request_id", pyint_val (pd_request m)); ("publication_id", pyint_val (pd_publication m))]
  | Subscribe m => [("request_id", pyint_val (su_request m)); ("options", VDict (su_options m));
                    ("topic", VStr (su_topic m))]
  | Subscribed m => [("request_id", pyint_val (sd_request m)); ("subscription_id", pyint_val (sd_subscription m))]
  | Unsubscribe m => [("request_id", pyint_val (us_request m)); ("subscription_id", pyint_val (us_subscription m))]
  | Unsubscribed m => [("request_id", pyint_val (ud_request m))]
  | Event m => [("subscription_id", pyint_val (ev_subscription m)); ("publication_id", pyint_val (ev_publication m));
                ("details", VDict (ev_details m)); ("args", olist (ev_args m)); ("kwargs", odict (ev_kwargs m))]
  | Call m => [("request_id", pyint_val (ca_request m)); ("options", VDict (ca_options m));
               ("procedure", VStr (ca_procedure m)); ("args", olist (ca_args m)); ("kwargs", odict (ca_kwargs m))]
  | Cancel m => [("request_id", pyint_val (cn_request m)); ("options", VDict (cn_options m))]
  | Result m => [("request_id", pyint_val (re_request m)); ("details", VDict (re_details m));
                 ("args", olist (re_args m)); ("kwargs", odict (re_kwargs m))]
  | Register m => [("request_id", pyint_val (rg_request m)); ("options", VDict (rg_options m));
                   ("procedure", VStr (rg_procedure m))]
  | Registered m => [("request_id", pyint_val (rd_request m)); ("registration_id", pyint_val (rd_registration m))]
  | Unregister m => [("request_id", pyint_val (ur_request m)); ("registration_id", pyint_val (ur_registration m))]
  | Unregistered m => [("request_id", pyint_val (un_request m))]
  | Invocation m => [("request_id", pyint_val (iv_request m)); ("registration_id", pyint_val (iv_registration m));
                     ("details", VDict (iv_details m)); ("args", olist (iv_args m)); ("kwargs", odict (iv_kwargs m))]
  | Interrupt m => [("request_id", pyint_val (it_request m)); ("options", VDict (it_options m))]
  | Yield m => [("request_id", pyint_val (yi_request m)); ("options", VDict (yi_options m));
                ("args", olist (yi_args m)); ("kwargs", odict (yi_kwargs m))]
  end.

(** [payload_is_binary()], [payload], [payload_serializer] of CALL, RESULT, INVOCATION and YIELD objects. *)
Definition payload_of (m : message) : binpayload :=
  match m with
  | Call m => ca_bin m | Result m => re_bin m | Invocation m => iv_bin m | Yield m => yi_bin m
  | _ => no_payload
  end.

(** What the schema says the attributes fed by one position must be, given the element found there
    (None: the list ends before it). *)
Definition entry (d : dict) (key : string) : val := match sget key d with Some v => v | None => VNone end.
Definition position_attrs (p : string * kind) (v : option val) : list (string * val) :=
  match snd p, v with
  | KHelloDetails, Some (VDict d) =>
      [("roles", entry d "roles"); ("authid", entry d "authid"); ("authmethods", entry d "authmethods");
       ("authextra", entry d "authextra")]
  | KWelcomeDetails, Some (VDict d) =>
      [("roles", entry d "roles"); ("authid", entry d "authid"); ("authrole", entry d "authrole");
       ("authmethod", entry d "authmethod");
       ("authextra", match entry d "authextra" with VNone => VDict [] | e => e end)]
  | _, Some v => [(fst p, v)]
  | _, None => [(fst p, VNone)]
  end.
Definition expected_attrs (c : mclass) (l : list val) : list (string * val) :=
  let ps := sc_req (schema_of c) ++ sc_opt (schema_of c) in
  flat_map (fun ip => position_attrs (snd ip) (nth_error l (fst ip))) (combine (seq 1 (length ps)) ps).

(** ** Violations *)
Inductive violation :=
| WrongType (idx : nat) (expected : string) (actual : val)
| OutOfRange (idx : nat) (actual : val)
| WrongEntry (idx : nat) (key expected : string) (actual : val)
| RolesEmpty (idx : nat)
| RoleUnknown (idx : nat) (role : val).

Definition violation_index (v : violation) : nat :=
  match v with
  | WrongType i _ _ | OutOfRange i _ | WrongEntry i _ _ _ | RolesEmpty i | RoleUnknown i _ => i
  end.

Definition entry_violations (good : val -> bool) (idx : nat) (key expected : string) (d : dict) : list violation :=
  match entry d key with
  | VNone => []
  | v => if good v then [] else [WrongEntry idx key expected v]
  end.
Definition is_str v := match v with VStr _ => true | _ => false end.
Definition is_list v := match v with VList _ => true | _ => false end.
Definition is_dict v := match v with VDict _ => true | _ => false end.
Definition known_role (k : val) : bool :=
  match k with VStr s => existsb (String.eqb s) roles_known | _ => false end.
Definition roles_violations (idx : nat) (d : dict) : list violation :=
  match entry d "roles" with
  | VDict [] => [RolesEmpty idx]
  | VDict r => match find (fun kv => negb (known_role (fst kv))) r with
               | Some (k, _) => [RoleUnknown idx k]
               | None => []
               end
  | v => [WrongEntry idx "roles" "dict" v]
  end.

Definition violations_at (idx : nat) (k : kind) (v : val) : list violation :=
  match k, v with
  | KId, VInt z => if (1 <=? z) && (z <=? 2 ^ 53) then [] else [OutOfRange idx v]
  | KId, VBool b => if b then [] else [OutOfRange idx v]
  | KId, _ => [WrongType idx "int" v]
  | KInt, VInt _ => []
  | KInt, VBool _ => []
  | KInt, _ => [WrongType idx "int" v]
  | KStr, VStr _ => []
  | KStr, _ => [WrongType idx "string" v]
  | KDict, VDict _ => []
  | KDict, _ => [WrongType idx "dict" v]
  | KList, VList _ => []
  | KList, _ => [WrongType idx "list" v]
  | KHelloDetails, VDict d =>
      entry_violations is_str idx "authid" "string" d ++ entry_violations is_str idx "authrole" "string" d
      ++ entry_violations is_list idx "authmethods" "list" d ++ roles_violations idx d
      ++ entry_violations is_dict idx "authextra" "dict" d
  | KHelloDetails, _ => [WrongType idx "dict" v]
  | KWelcomeDetails, VDict d =>
      roles_violations idx d ++ entry_violations is_str idx "authid" "string" d
      ++ entry_violations is_str idx "authrole" "string" d ++ entry_violations is_dict idx "authextra" "dict" d
      ++ entry_violations is_str idx "authmethod" "string" d
  | KWelcomeDetails, _ => [WrongType idx "dict" v]
  end.

(** All violations of a list, position by position. *)
Fixpoint violations_from (idx : nat) (ks : list kind) (l : list val) : list violation :=
  match ks, l with
  | k :: ks', v :: l' => violations_at idx k v ++ violations_from (S idx) ks' l'
  | _, _ => []
  end.
Definition violations (c : mclass) (l : list val) : list violation :=
  violations_from 1 (map snd (sc_req (schema_of c) ++ sc_opt (schema_of c))) (tl l).

(** Text of a violation (exceptions.py:3-7, util.py:311-320). *)
Definition digits (n : nat) : string := NilZero.string_of_int (Z.to_int (Z.of_nat n)).
Definition roles_text : string := "['callee', 'caller', 'publisher', 'subscriber', 'dealer', 'broker']".
Definition render (msg : string) (v : violation) : string :=
  match v with
  | WrongType i e a =>
      append msg (append ": value at index " (append (digits i) (append " must be of type '" (append e
        (append "' but was " (type_name a))))))
  | OutOfRange i a =>
      append msg (append ": value at index " (append (digits i)
        (append " must be between '1' and '9007199254740992' but was " (py_str a))))
  | WrongEntry i k e a =>
      append msg (append ": value at index " (append (digits i) (append " for key '" (append k
        (append "' must be of type '" (append e (append "' but was " (type_name a))))))))
  | RolesEmpty i =>
      append msg (append ": value at index " (append (digits i) (append " for roles key must be in "
        (append roles_text " but was empty"))))
  | RoleUnknown i k =>
      append msg (append ": value at index " (append (digits i) (append " for roles key must be in "
        (append roles_text (append " but was " (py_str k))))))
  end.

(** ** Well-formed message objects and the normalisations of a round trip *)
Definition wf_id (i : pyint) : Prop := exists z, i = PyInt z /\ 1 <= z <= 2 ^ 53.
Definition wf_roles (r : dict) : Prop :=
  r <> [] /\ forall k v, In (k, v) r -> exists s, k = VStr s /\ In s roles_known.

Definition wf_message_with (good_id : pyint -> Prop) (m : message) : Prop :=
  match m with
  | Hello m => wf_roles (he_roles m)
  | Welcome m => good_id (we_session m) /\ wf_roles (we_roles m)
  | Abort _ | Challenge _ | Authenticate _ | Goodbye _ => True
  | Error m => good_id (er_request m)
  | Publish m => good_id (pb_request m)
  | Published m => good_id (pd_request m) /\ good_id (pd_publication m)
  | Subscribe m => good_id (su_request m)
  | Subscribed m => good_id (sd_request m) /\ good_id (sd_subscription m)
  | Unsubscribe m => good_id (us_request m) /\ good_id (us_subscription m)
  | Unsubscribed m => good_id (ud_request m)
  | Event m => good_id (ev_subscription m) /\ good_id (ev_publication m)
  | Call m => good_id (ca_request m)
  | Cancel m => good_id (cn_request m)
  | Result m => good_id (re_request m)
  | Register m => good_id (rg_request m)
  | Registered m => good_id (rd_request m) /\ good_id (rd_registration m)
  | Unregister m => good_id (ur_request m) /\ good_id (ur_registration m)
  | Unregistered m => good_id (un_request m)
  | Invocation m => good_id (iv_request m) /\ good_id (iv_registration m)
  | Interrupt m => good_id (it_request m)
  | Yield m => good_id (yi_request m)
  end.
Definition wf_message : message -> Prop := wf_message_with wf_id.

(** args None becomes [] when kwargs is present. *)
Definition norm_args (args : option (list val)) (kwargs : option dict) : option (list val) :=
  match args, kwargs with None, Some _ => Some [] | _, _ => args end.
(** The payload serializer id is folded into options/details. *)
Definition norm_opts (d : dict) (b : binpayload) : dict :=
  match bp_serializer b with Some s => sset "x_payload_serializer" (VInt s) d | None => d end.

Definition normalise (m : message) : message :=
  match m with
  | Abort m => Abort (mkAbort (ab_details m) (ab_reason m) None None)
  | Error m => Error (mkError (er_type m) (er_request m) (er_uri m) (norm_args (er_args m) (er_kwargs m))
                        (er_kwargs m) (er_details m))
  | Publish m => Publish (mkPublish (pb_request m) (pb_topic m) (norm_args (pb_args m) (pb_kwargs m))
                        (pb_kwargs m) (pb_options m))
  | Event m => Event (mkEvent (ev_subscription m) (ev_publication m) (norm_args (ev_args m) (ev_kwargs m))
                        (ev_kwargs m) (ev_details m))
  | Call m => Call (mkCall (ca_request m) (ca_procedure m) (norm_args (ca_args m) (ca_kwargs m)) (ca_kwargs m)
                        (norm_opts (ca_opts m) (ca_bin m)) no_payload)
  | Result m => Result (mkResult (re_request m) (norm_args (re_args m) (re_kwargs m)) (re_kwargs m)
                        (norm_opts (re_dets m) (re_bin m)) no_payload)
  | Invocation m => Invocation (mkInvocation (iv_request m) (iv_registration m)
                        (norm_args (iv_args m) (iv_kwargs m)) (iv_kwargs m)
                        (norm_opts (iv_dets m) (iv_bin m)) no_payload)
  | Yield m => Yield (mkYield (yi_request m) (norm_args (yi_args m) (yi_kwargs m)) (yi_kwargs m)
                        (norm_opts (yi_opts m) (yi_bin m)) no_payload)
  | m => m
  end.
