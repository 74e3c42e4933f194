(** * RepoTests: the unit tests of /repo/tests/messages (and tests/serializers/test_serializer.py), replayed on the
    model.  Generated by /verif/tools/repotests.py from the text of the tests; tests, not proofs. *)
From Coq Require Import String Ascii List ZArith Bool.
From Verif Require Import PyBase Messages Parse SpecSchema Helpers.
Import ListNotations.
Local Open Scope string_scope.
Local Open Scope Z_scope.
Local Open Scope list_scope.

Definition parses (c : mclass) (v : val) : res message := parse_object (parse_of c) (sc_name (schema_of c)) v.
Definition succeeds (r : res message) : Prop := match r with Ok _ => True | Raise _ => False end.
(** The attribute of the message a call returns. *)
Definition attribute (name : string) (r : res message) : option val :=
  match r with
  | Ok m => match find (fun '(n, _) => String.eqb n name) (attrs m) with Some (_, v) => Some v | None => None end
  | Raise _ => None
  end.
Definition element (o : option val) (i : nat) : option val := match o with Some (VList l) => nth_error l i | _ => None end.
Definition size (o : option val) : option nat :=
  match o with Some (VList l) => Some (length l) | Some (VDict d) => Some (length d) | _ => None end.
Definition kind (o : option val) : option string := option_map type_name o.
(** [==] on the values occurring in the tests: dicts compare regardless of order. *)
Fixpoint eqv (a b : val) : bool :=
  match a, b with
  | VNone, VNone => true
  | VBool x, VBool y => Bool.eqb x y
  | VInt x, VInt y => x =? y
  | VStr x, VStr y => String.eqb x y
  | VList x, VList y =>
      (fix go x y := match x, y with [], [] => true | p :: x', q :: y' => eqv p q && go x' y' | _, _ => false end) x y
  | VDict x, VDict y =>
      Nat.eqb (length x) (length y) &&
      (fix go x := match x with
                   | [] => true
                   | (VStr k, v) :: x' => match sget k y with Some w => eqv v w | None => false end && go x'
                   | _ => false
                   end) x
  | _, _ => false
  end.
Definition same (o : option val) (v : val) : bool := match o with Some w => eqv w v | None => false end.

(** tests/messages/test_abort.py *)
Example abort_test_parse_with_invalid_type :
  parses CAbort (VStr "msg") = Raise (ValueError ["invalid message type str for ABORT, type should be a list"]).
Proof. now vm_compute. Qed.
Example abort_test_parse_with_invalid_min_length :
  parses CAbort (VList [VStr "foo"]) = Raise (ValueError ["invalid message length 1, must be at least 3"]).
Proof. now vm_compute. Qed.
Example abort_test_parse_with_invalid_max_length :
  parses CAbort (VList [VInt 1; VDict []; VStr "io.xconn"; VInt 4; VInt 5; VInt 6]) = Raise (ValueError ["invalid message length 6, must be at most 5"]).
Proof. now vm_compute. Qed.
Example abort_test_parse_with_invalid_message_type :
  parses CAbort (VList [VInt 2; VDict []; VStr "wamp.error.no_such_realm"]) = Raise (ValueError ["invalid message id 2 for ABORT, expected 3"]).
Proof. now vm_compute. Qed.
Example abort_test_parse_with_invalid_detail_type :
  parses CAbort (VList [VInt 3; VStr "detail"; VStr "wamp.error.no_such_realm"]) = Raise (ValueError ["ABORT: value at index 1 must be of type 'dict' but was str"]).
Proof. now vm_compute. Qed.
Example abort_test_parse_with_reason_none :
  parses CAbort (VList [VInt 3; VDict []; VNone]) = Raise (ValueError ["ABORT: value at index 2 must be of type 'string' but was NoneType"]).
Proof. now vm_compute. Qed.
Example abort_test_parse_with_invalid_reason_type :
  parses CAbort (VList [VInt 3; VDict []; VList [VStr "wamp.error.no_such_realm"]]) = Raise (ValueError ["ABORT: value at index 2 must be of type 'string' but was list"]).
Proof. now vm_compute. Qed.
Example abort_test_parse_correctly :
  succeeds (parses CAbort (VList [VInt 3; VDict [(VStr "message", VStr "The realm does not exist.")]; VStr "wamp.error.no_such_realm"])) /\
  kind (attribute "details" (parses CAbort (VList [VInt 3; VDict [(VStr "message", VStr "The realm does not exist.")]; VStr "wamp.error.no_such_realm"]))) = Some "dict" /\
  same (attribute "details" (parses CAbort (VList [VInt 3; VDict [(VStr "message", VStr "The realm does not exist.")]; VStr "wamp.error.no_such_realm"]))) (VDict [(VStr "message", VStr "The realm does not exist.")]) = true /\
  kind (attribute "reason" (parses CAbort (VList [VInt 3; VDict [(VStr "message", VStr "The realm does not exist.")]; VStr "wamp.error.no_such_realm"]))) = Some "str" /\
  same (attribute "reason" (parses CAbort (VList [VInt 3; VDict [(VStr "message", VStr "The realm does not exist.")]; VStr "wamp.error.no_such_realm"]))) (VStr "wamp.error.no_such_realm") = true.
Proof. now vm_compute. Qed.
Example abort_test_marshal_with_empty_details :
  kind (nth_error (marshal (Abort (mkAbort [] "wamp.error.no_such_realm" None None))) 0) = Some "int" /\
  same (nth_error (marshal (Abort (mkAbort [] "wamp.error.no_such_realm" None None))) 0) (VInt 3) = true /\
  same (nth_error (marshal (Abort (mkAbort [] "wamp.error.no_such_realm" None None))) 1) (VDict []) = true /\
  kind (nth_error (marshal (Abort (mkAbort [] "wamp.error.no_such_realm" None None))) 2) = Some "str" /\
  same (nth_error (marshal (Abort (mkAbort [] "wamp.error.no_such_realm" None None))) 2) (VStr "wamp.error.no_such_realm") = true.
Proof. now vm_compute. Qed.
Example abort_test_marshal_with_details :
  kind (nth_error (marshal (Abort (mkAbort [(VStr "message", VStr "The realm does not exist.")] "wamp.error.no_such_realm" None None))) 0) = Some "int" /\
  same (nth_error (marshal (Abort (mkAbort [(VStr "message", VStr "The realm does not exist.")] "wamp.error.no_such_realm" None None))) 0) (VInt 3) = true /\
  kind (nth_error (marshal (Abort (mkAbort [(VStr "message", VStr "The realm does not exist.")] "wamp.error.no_such_realm" None None))) 1) = Some "dict" /\
  same (nth_error (marshal (Abort (mkAbort [(VStr "message", VStr "The realm does not exist.")] "wamp.error.no_such_realm" None None))) 1) (VDict [(VStr "message", VStr "The realm does not exist.")]) = true /\
  kind (nth_error (marshal (Abort (mkAbort [(VStr "message", VStr "The realm does not exist.")] "wamp.error.no_such_realm" None None))) 2) = Some "str" /\
  same (nth_error (marshal (Abort (mkAbort [(VStr "message", VStr "The realm does not exist.")] "wamp.error.no_such_realm" None None))) 2) (VStr "wamp.error.no_such_realm") = true.
Proof. now vm_compute. Qed.

(** tests/messages/test_authenticate.py *)
Example authenticate_test_parse_with_invalid_type :
  parses CAuthenticate (VStr "msg") = Raise (ValueError ["invalid message type str for AUTHENTICATE, type should be a list"]).
Proof. now vm_compute. Qed.
Example authenticate_test_parse_with_invalid_min_length :
  parses CAuthenticate (VList [VInt 5]) = Raise (ValueError ["invalid message length 1, must be at least 3"]).
Proof. now vm_compute. Qed.
Example authenticate_test_parse_with_invalid_max_length :
  parses CAuthenticate (VList [VInt 5; VInt 6; VInt 4; VInt 3]) = Raise (ValueError ["invalid message length 4, must be at most 3"]).
Proof. now vm_compute. Qed.
Example authenticate_test_parse_with_invalid_message_type :
  parses CAuthenticate (VList [VInt 4; VStr "signature"; VDict []]) = Raise (ValueError ["invalid message id 4 for AUTHENTICATE, expected 5"]).
Proof. now vm_compute. Qed.
Example authenticate_test_parse_with_invalid_signature_type :
  parses CAuthenticate (VList [VInt 5; VList [VStr "signature"]; VDict []]) = Raise (ValueError ["AUTHENTICATE: value at index 1 must be of type 'string' but was list"]).
Proof. now vm_compute. Qed.
Example authenticate_test_parse_with_invalid_extra_type :
  parses CAuthenticate (VList [VInt 5; VStr "signature"; VStr "extra"]) = Raise (ValueError ["AUTHENTICATE: value at index 2 must be of type 'dict' but was str"]).
Proof. now vm_compute. Qed.
Example authenticate_test_parse_correctly :
  succeeds (parses CAuthenticate (VList [VInt 5; VStr "signature"; VDict [(VStr "channel_binding", VStr "null")]])) /\
  kind (attribute "signature" (parses CAuthenticate (VList [VInt 5; VStr "signature"; VDict [(VStr "channel_binding", VStr "null")]]))) = Some "str" /\
  same (attribute "signature" (parses CAuthenticate (VList [VInt 5; VStr "signature"; VDict [(VStr "channel_binding", VStr "null")]]))) (VStr "signature") = true /\
  kind (attribute "extra" (parses CAuthenticate (VList [VInt 5; VStr "signature"; VDict [(VStr "channel_binding", VStr "null")]]))) = Some "dict" /\
  same (attribute "extra" (parses CAuthenticate (VList [VInt 5; VStr "signature"; VDict [(VStr "channel_binding", VStr "null")]]))) (VDict [(VStr "channel_binding", VStr "null")]) = true.
Proof. now vm_compute. Qed.
Example authenticate_test_marshal_without_extra :
  kind (nth_error (marshal (Authenticate (mkAuthenticate "signature" []))) 0) = Some "int" /\
  same (nth_error (marshal (Authenticate (mkAuthenticate "signature" []))) 0) (VInt 5) = true /\
  kind (nth_error (marshal (Authenticate (mkAuthenticate "signature" []))) 1) = Some "str" /\
  same (nth_error (marshal (Authenticate (mkAuthenticate "signature" []))) 1) (VStr "signature") = true /\
  same (nth_error (marshal (Authenticate (mkAuthenticate "signature" []))) 2) (VDict []) = true.
Proof. now vm_compute. Qed.
Example authenticate_test_marshal_with_extra :
  kind (nth_error (marshal (Authenticate (mkAuthenticate "signature" [(VStr "channel_binding", VStr "null")]))) 0) = Some "int" /\
  same (nth_error (marshal (Authenticate (mkAuthenticate "signature" [(VStr "channel_binding", VStr "null")]))) 0) (VInt 5) = true /\
  kind (nth_error (marshal (Authenticate (mkAuthenticate "signature" [(VStr "channel_binding", VStr "null")]))) 1) = Some "str" /\
  same (nth_error (marshal (Authenticate (mkAuthenticate "signature" [(VStr "channel_binding", VStr "null")]))) 1) (VStr "signature") = true /\
  kind (nth_error (marshal (Authenticate (mkAuthenticate "signature" [(VStr "channel_binding", VStr "null")]))) 2) = Some "dict" /\
  same (nth_error (marshal (Authenticate (mkAuthenticate "signature" [(VStr "channel_binding", VStr "null")]))) 2) (VDict [(VStr "channel_binding", VStr "null")]) = true.
Proof. now vm_compute. Qed.

(** tests/messages/test_call.py *)
Example call_test_parse_with_invalid_type :
  parses CCall (VStr "msg") = Raise (ValueError ["invalid message type str for CALL, type should be a list"]).
Proof. now vm_compute. Qed.
Example call_test_parse_with_invalid_min_length :
  parses CCall (VList [VStr "foo"]) = Raise (ValueError ["invalid message length 1, must be at least 4"]).
Proof. now vm_compute. Qed.
Example call_test_parse_with_invalid_max_length :
  parses CCall (VList [VStr "foo"; VInt 1; VInt 6; VInt 3; VInt 42; VInt 24; VInt 12]) = Raise (ValueError ["invalid message length 7, must be at most 6"]).
Proof. now vm_compute. Qed.
Example call_test_parse_with_invalid_message_type :
  parses CCall (VList [VInt 10; VInt 7814135; VDict []; VStr "io.xconn.ping"]) = Raise (ValueError ["invalid message id 10 for CALL, expected 48"]).
Proof. now vm_compute. Qed.
Example call_test_parse_with_multiple_errors :
  parses CCall (VList [VInt 48; VStr "1"; VInt 23; VDict [(VStr "procedure", VStr "xconn")]]) = Raise (ValueError ["CALL: value at index 1 must be of type 'int' but was str"; "CALL: value at index 2 must be of type 'dict' but was int"; "CALL: value at index 3 must be of type 'string' but was dict"]).
Proof. now vm_compute. Qed.
Example call_test_parse_with_negative_request_id :
  parses CCall (VList [VInt 48; VInt (-1); VDict []; VStr "io.xconn.ping"]) = Raise (ValueError ["CALL: value at index 1 must be between '1' and '9007199254740992' but was -1"]).
Proof. now vm_compute. Qed.
Example call_test_parse_with_out_of_range_request_value :
  parses CCall (VList [VInt 48; VInt 9007199254740993; VDict []; VStr "io.xconn.ping"]) = Raise (ValueError ["CALL: value at index 1 must be between '1' and '9007199254740992' but was 9007199254740993"]).
Proof. now vm_compute. Qed.
Example call_test_parse_with_invalid_options_type :
  parses CCall (VList [VInt 48; VInt 367; VStr "options"; VStr "io.xconn.ping"]) = Raise (ValueError ["CALL: value at index 2 must be of type 'dict' but was str"]).
Proof. now vm_compute. Qed.
Example call_test_parse_with_procedure_none :
  parses CCall (VList [VInt 48; VInt 367; VDict []; VNone]) = Raise (ValueError ["CALL: value at index 3 must be of type 'string' but was NoneType"]).
Proof. now vm_compute. Qed.
Example call_test_parse_with_invalid_procedure_type :
  parses CCall (VList [VInt 48; VInt 367; VDict []; VDict [(VStr "procedure", VStr "io.xconn.ping")]]) = Raise (ValueError ["CALL: value at index 3 must be of type 'string' but was dict"]).
Proof. now vm_compute. Qed.
Example call_test_parse_with_invalid_args_type :
  parses CCall (VList [VInt 48; VInt 367; VDict []; VStr "io.xconn.ping"; VStr "args"]) = Raise (ValueError ["CALL: value at index 4 must be of type 'list' but was str"]).
Proof. now vm_compute. Qed.
Example call_test_parse_with_invalid_kwargs_type :
  parses CCall (VList [VInt 48; VInt 367; VDict []; VStr "io.xconn.ping"; VList []; VList [VStr "kwargs"]]) = Raise (ValueError ["CALL: value at index 5 must be of type 'dict' but was list"]).
Proof. now vm_compute. Qed.
Example call_test_parse_correctly :
  succeeds (parses CCall (VList [VInt 48; VInt 367; VDict []; VStr "io.xconn.ping"])) /\
  kind (attribute "request_id" (parses CCall (VList [VInt 48; VInt 367; VDict []; VStr "io.xconn.ping"]))) = Some "int" /\
  same (attribute "request_id" (parses CCall (VList [VInt 48; VInt 367; VDict []; VStr "io.xconn.ping"]))) (VInt 367) = true /\
  kind (attribute "procedure" (parses CCall (VList [VInt 48; VInt 367; VDict []; VStr "io.xconn.ping"]))) = Some "str" /\
  same (attribute "procedure" (parses CCall (VList [VInt 48; VInt 367; VDict []; VStr "io.xconn.ping"]))) (VStr "io.xconn.ping") = true /\
  same (attribute "args" (parses CCall (VList [VInt 48; VInt 367; VDict []; VStr "io.xconn.ping"]))) (VNone) = true /\
  same (attribute "kwargs" (parses CCall (VList [VInt 48; VInt 367; VDict []; VStr "io.xconn.ping"]))) (VNone) = true /\
  same (attribute "options" (parses CCall (VList [VInt 48; VInt 367; VDict []; VStr "io.xconn.ping"]))) (VDict []) = true.
Proof. now vm_compute. Qed.
Example call_test_parse_correctly_with_options :
  succeeds (parses CCall (VList [VInt 48; VInt 367; VDict [(VStr "caller_authid", VStr "mahad")]; VStr "io.xconn.ping"])) /\
  kind (attribute "request_id" (parses CCall (VList [VInt 48; VInt 367; VDict [(VStr "caller_authid", VStr "mahad")]; VStr "io.xconn.ping"]))) = Some "int" /\
  same (attribute "request_id" (parses CCall (VList [VInt 48; VInt 367; VDict [(VStr "caller_authid", VStr "mahad")]; VStr "io.xconn.ping"]))) (VInt 367) = true /\
  kind (attribute "procedure" (parses CCall (VList [VInt 48; VInt 367; VDict [(VStr "caller_authid", VStr "mahad")]; VStr "io.xconn.ping"]))) = Some "str" /\
  same (attribute "procedure" (parses CCall (VList [VInt 48; VInt 367; VDict [(VStr "caller_authid", VStr "mahad")]; VStr "io.xconn.ping"]))) (VStr "io.xconn.ping") = true /\
  kind (attribute "options" (parses CCall (VList [VInt 48; VInt 367; VDict [(VStr "caller_authid", VStr "mahad")]; VStr "io.xconn.ping"]))) = Some "dict" /\
  same (attribute "options" (parses CCall (VList [VInt 48; VInt 367; VDict [(VStr "caller_authid", VStr "mahad")]; VStr "io.xconn.ping"]))) (VDict [(VStr "caller_authid", VStr "mahad")]) = true /\
  same (attribute "args" (parses CCall (VList [VInt 48; VInt 367; VDict [(VStr "caller_authid", VStr "mahad")]; VStr "io.xconn.ping"]))) (VNone) = true /\
  same (attribute "kwargs" (parses CCall (VList [VInt 48; VInt 367; VDict [(VStr "caller_authid", VStr "mahad")]; VStr "io.xconn.ping"]))) (VNone) = true.
Proof. now vm_compute. Qed.
Example call_test_parse_correctly_with_args :
  succeeds (parses CCall (VList [VInt 48; VInt 367; VDict []; VStr "io.xconn.ping"; VList [VStr "first"; VInt 2]])) /\
  kind (attribute "request_id" (parses CCall (VList [VInt 48; VInt 367; VDict []; VStr "io.xconn.ping"; VList [VStr "first"; VInt 2]]))) = Some "int" /\
  same (attribute "request_id" (parses CCall (VList [VInt 48; VInt 367; VDict []; VStr "io.xconn.ping"; VList [VStr "first"; VInt 2]]))) (VInt 367) = true /\
  kind (attribute "procedure" (parses CCall (VList [VInt 48; VInt 367; VDict []; VStr "io.xconn.ping"; VList [VStr "first"; VInt 2]]))) = Some "str" /\
  same (attribute "procedure" (parses CCall (VList [VInt 48; VInt 367; VDict []; VStr "io.xconn.ping"; VList [VStr "first"; VInt 2]]))) (VStr "io.xconn.ping") = true /\
  kind (attribute "args" (parses CCall (VList [VInt 48; VInt 367; VDict []; VStr "io.xconn.ping"; VList [VStr "first"; VInt 2]]))) = Some "list" /\
  same (attribute "args" (parses CCall (VList [VInt 48; VInt 367; VDict []; VStr "io.xconn.ping"; VList [VStr "first"; VInt 2]]))) (VList [VStr "first"; VInt 2]) = true /\
  same (attribute "options" (parses CCall (VList [VInt 48; VInt 367; VDict []; VStr "io.xconn.ping"; VList [VStr "first"; VInt 2]]))) (VDict []) = true /\
  same (attribute "kwargs" (parses CCall (VList [VInt 48; VInt 367; VDict []; VStr "io.xconn.ping"; VList [VStr "first"; VInt 2]]))) (VNone) = true.
Proof. now vm_compute. Qed.
Example call_test_parse_correctly_with_kwargs :
  succeeds (parses CCall (VList [VInt 48; VInt 367; VDict []; VStr "io.xconn.ping"; VList []; VDict [(VStr "name", VStr "mahad")]])) /\
  kind (attribute "request_id" (parses CCall (VList [VInt 48; VInt 367; VDict []; VStr "io.xconn.ping"; VList []; VDict [(VStr "name", VStr "mahad")]]))) = Some "int" /\
  same (attribute "request_id" (parses CCall (VList [VInt 48; VInt 367; VDict []; VStr "io.xconn.ping"; VList []; VDict [(VStr "name", VStr "mahad")]]))) (VInt 367) = true /\
  kind (attribute "procedure" (parses CCall (VList [VInt 48; VInt 367; VDict []; VStr "io.xconn.ping"; VList []; VDict [(VStr "name", VStr "mahad")]]))) = Some "str" /\
  same (attribute "procedure" (parses CCall (VList [VInt 48; VInt 367; VDict []; VStr "io.xconn.ping"; VList []; VDict [(VStr "name", VStr "mahad")]]))) (VStr "io.xconn.ping") = true /\
  same (attribute "kwargs" (parses CCall (VList [VInt 48; VInt 367; VDict []; VStr "io.xconn.ping"; VList []; VDict [(VStr "name", VStr "mahad")]]))) (VDict [(VStr "name", VStr "mahad")]) = true /\
  same (attribute "args" (parses CCall (VList [VInt 48; VInt 367; VDict []; VStr "io.xconn.ping"; VList []; VDict [(VStr "name", VStr "mahad")]]))) (VList []) = true /\
  same (attribute "options" (parses CCall (VList [VInt 48; VInt 367; VDict []; VStr "io.xconn.ping"; VList []; VDict [(VStr "name", VStr "mahad")]]))) (VDict []) = true.
Proof. now vm_compute. Qed.
Example call_test_parse_correctly_with_all_options :
  succeeds (parses CCall (VList [VInt 48; VInt 367; VDict [(VStr "caller_authid", VStr "mahad")]; VStr "io.xconn.ping"; VList [VStr "arg1"]; VDict [(VStr "name", VStr "mahad")]])) /\
  kind (attribute "request_id" (parses CCall (VList [VInt 48; VInt 367; VDict [(VStr "caller_authid", VStr "mahad")]; VStr "io.xconn.ping"; VList [VStr "arg1"]; VDict [(VStr "name", VStr "mahad")]]))) = Some "int" /\
  same (attribute "request_id" (parses CCall (VList [VInt 48; VInt 367; VDict [(VStr "caller_authid", VStr "mahad")]; VStr "io.xconn.ping"; VList [VStr "arg1"]; VDict [(VStr "name", VStr "mahad")]]))) (VInt 367) = true /\
  kind (attribute "procedure" (parses CCall (VList [VInt 48; VInt 367; VDict [(VStr "caller_authid", VStr "mahad")]; VStr "io.xconn.ping"; VList [VStr "arg1"]; VDict [(VStr "name", VStr "mahad")]]))) = Some "str" /\
  same (attribute "procedure" (parses CCall (VList [VInt 48; VInt 367; VDict [(VStr "caller_authid", VStr "mahad")]; VStr "io.xconn.ping"; VList [VStr "arg1"]; VDict [(VStr "name", VStr "mahad")]]))) (VStr "io.xconn.ping") = true /\
  same (attribute "options" (parses CCall (VList [VInt 48; VInt 367; VDict [(VStr "caller_authid", VStr "mahad")]; VStr "io.xconn.ping"; VList [VStr "arg1"]; VDict [(VStr "name", VStr "mahad")]]))) (VDict [(VStr "caller_authid", VStr "mahad")]) = true /\
  same (attribute "args" (parses CCall (VList [VInt 48; VInt 367; VDict [(VStr "caller_authid", VStr "mahad")]; VStr "io.xconn.ping"; VList [VStr "arg1"]; VDict [(VStr "name", VStr "mahad")]]))) (VList [VStr "arg1"]) = true /\
  same (attribute "kwargs" (parses CCall (VList [VInt 48; VInt 367; VDict [(VStr "caller_authid", VStr "mahad")]; VStr "io.xconn.ping"; VList [VStr "arg1"]; VDict [(VStr "name", VStr "mahad")]]))) (VDict [(VStr "name", VStr "mahad")]) = true.
Proof. now vm_compute. Qed.
Example call_test_marshal :
  length (marshal (Call (mkCall (PyInt 367) "io.xconn.hello" None None [] no_payload))) = 4%nat /\
  kind (nth_error (marshal (Call (mkCall (PyInt 367) "io.xconn.hello" None None [] no_payload))) 0) = Some "int" /\
  same (nth_error (marshal (Call (mkCall (PyInt 367) "io.xconn.hello" None None [] no_payload))) 0) (VInt 48) = true /\
  kind (nth_error (marshal (Call (mkCall (PyInt 367) "io.xconn.hello" None None [] no_payload))) 1) = Some "int" /\
  same (nth_error (marshal (Call (mkCall (PyInt 367) "io.xconn.hello" None None [] no_payload))) 1) (VInt 367) = true /\
  same (nth_error (marshal (Call (mkCall (PyInt 367) "io.xconn.hello" None None [] no_payload))) 2) (VDict []) = true /\
  same (nth_error (marshal (Call (mkCall (PyInt 367) "io.xconn.hello" None None [] no_payload))) 3) (VStr "io.xconn.hello") = true.
Proof. now vm_compute. Qed.
Example call_test_marshal_with_args :
  length (marshal (Call (mkCall (PyInt 367) "io.xconn.hello" (Some [VStr "new"]) None [] no_payload))) = 5%nat /\
  kind (nth_error (marshal (Call (mkCall (PyInt 367) "io.xconn.hello" (Some [VStr "new"]) None [] no_payload))) 0) = Some "int" /\
  same (nth_error (marshal (Call (mkCall (PyInt 367) "io.xconn.hello" (Some [VStr "new"]) None [] no_payload))) 0) (VInt 48) = true /\
  kind (nth_error (marshal (Call (mkCall (PyInt 367) "io.xconn.hello" (Some [VStr "new"]) None [] no_payload))) 1) = Some "int" /\
  same (nth_error (marshal (Call (mkCall (PyInt 367) "io.xconn.hello" (Some [VStr "new"]) None [] no_payload))) 1) (VInt 367) = true /\
  same (nth_error (marshal (Call (mkCall (PyInt 367) "io.xconn.hello" (Some [VStr "new"]) None [] no_payload))) 2) (VDict []) = true /\
  same (nth_error (marshal (Call (mkCall (PyInt 367) "io.xconn.hello" (Some [VStr "new"]) None [] no_payload))) 3) (VStr "io.xconn.hello") = true /\
  same (nth_error (marshal (Call (mkCall (PyInt 367) "io.xconn.hello" (Some [VStr "new"]) None [] no_payload))) 4) (VList [VStr "new"]) = true.
Proof. now vm_compute. Qed.
Example call_test_marshal_with_kwargs :
  length (marshal (Call (mkCall (PyInt 167) "io.xconn.new" (Some [VStr "args"]) (Some [(VStr "new", VStr "value")]) [] no_payload))) = 6%nat /\
  kind (nth_error (marshal (Call (mkCall (PyInt 167) "io.xconn.new" (Some [VStr "args"]) (Some [(VStr "new", VStr "value")]) [] no_payload))) 0) = Some "int" /\
  same (nth_error (marshal (Call (mkCall (PyInt 167) "io.xconn.new" (Some [VStr "args"]) (Some [(VStr "new", VStr "value")]) [] no_payload))) 0) (VInt 48) = true /\
  kind (nth_error (marshal (Call (mkCall (PyInt 167) "io.xconn.new" (Some [VStr "args"]) (Some [(VStr "new", VStr "value")]) [] no_payload))) 1) = Some "int" /\
  same (nth_error (marshal (Call (mkCall (PyInt 167) "io.xconn.new" (Some [VStr "args"]) (Some [(VStr "new", VStr "value")]) [] no_payload))) 1) (VInt 167) = true /\
  same (nth_error (marshal (Call (mkCall (PyInt 167) "io.xconn.new" (Some [VStr "args"]) (Some [(VStr "new", VStr "value")]) [] no_payload))) 2) (VDict []) = true /\
  same (nth_error (marshal (Call (mkCall (PyInt 167) "io.xconn.new" (Some [VStr "args"]) (Some [(VStr "new", VStr "value")]) [] no_payload))) 3) (VStr "io.xconn.new") = true /\
  kind (nth_error (marshal (Call (mkCall (PyInt 167) "io.xconn.new" (Some [VStr "args"]) (Some [(VStr "new", VStr "value")]) [] no_payload))) 4) = Some "list" /\
  same (nth_error (marshal (Call (mkCall (PyInt 167) "io.xconn.new" (Some [VStr "args"]) (Some [(VStr "new", VStr "value")]) [] no_payload))) 4) (VList [VStr "args"]) = true /\
  kind (nth_error (marshal (Call (mkCall (PyInt 167) "io.xconn.new" (Some [VStr "args"]) (Some [(VStr "new", VStr "value")]) [] no_payload))) 5) = Some "dict" /\
  same (nth_error (marshal (Call (mkCall (PyInt 167) "io.xconn.new" (Some [VStr "args"]) (Some [(VStr "new", VStr "value")]) [] no_payload))) 5) (VDict [(VStr "new", VStr "value")]) = true.
Proof. now vm_compute. Qed.
Example call_test_marshal_with_all_options :
  length (marshal (Call (mkCall (PyInt 1677) "io.xconn.ping" (Some [VStr "arg1"]) (Some [(VStr "key", VStr "value")]) [(VStr "receive_progress", VBool true)] no_payload))) = 6%nat /\
  kind (nth_error (marshal (Call (mkCall (PyInt 1677) "io.xconn.ping" (Some [VStr "arg1"]) (Some [(VStr "key", VStr "value")]) [(VStr "receive_progress", VBool true)] no_payload))) 0) = Some "int" /\
  same (nth_error (marshal (Call (mkCall (PyInt 1677) "io.xconn.ping" (Some [VStr "arg1"]) (Some [(VStr "key", VStr "value")]) [(VStr "receive_progress", VBool true)] no_payload))) 0) (VInt 48) = true /\
  kind (nth_error (marshal (Call (mkCall (PyInt 1677) "io.xconn.ping" (Some [VStr "arg1"]) (Some [(VStr "key", VStr "value")]) [(VStr "receive_progress", VBool true)] no_payload))) 1) = Some "int" /\
  same (nth_error (marshal (Call (mkCall (PyInt 1677) "io.xconn.ping" (Some [VStr "arg1"]) (Some [(VStr "key", VStr "value")]) [(VStr "receive_progress", VBool true)] no_payload))) 1) (VInt 1677) = true /\
  kind (nth_error (marshal (Call (mkCall (PyInt 1677) "io.xconn.ping" (Some [VStr "arg1"]) (Some [(VStr "key", VStr "value")]) [(VStr "receive_progress", VBool true)] no_payload))) 2) = Some "dict" /\
  same (nth_error (marshal (Call (mkCall (PyInt 1677) "io.xconn.ping" (Some [VStr "arg1"]) (Some [(VStr "key", VStr "value")]) [(VStr "receive_progress", VBool true)] no_payload))) 2) (VDict [(VStr "receive_progress", VBool true)]) = true /\
  same (nth_error (marshal (Call (mkCall (PyInt 1677) "io.xconn.ping" (Some [VStr "arg1"]) (Some [(VStr "key", VStr "value")]) [(VStr "receive_progress", VBool true)] no_payload))) 3) (VStr "io.xconn.ping") = true /\
  kind (nth_error (marshal (Call (mkCall (PyInt 1677) "io.xconn.ping" (Some [VStr "arg1"]) (Some [(VStr "key", VStr "value")]) [(VStr "receive_progress", VBool true)] no_payload))) 4) = Some "list" /\
  same (nth_error (marshal (Call (mkCall (PyInt 1677) "io.xconn.ping" (Some [VStr "arg1"]) (Some [(VStr "key", VStr "value")]) [(VStr "receive_progress", VBool true)] no_payload))) 4) (VList [VStr "arg1"]) = true /\
  kind (nth_error (marshal (Call (mkCall (PyInt 1677) "io.xconn.ping" (Some [VStr "arg1"]) (Some [(VStr "key", VStr "value")]) [(VStr "receive_progress", VBool true)] no_payload))) 5) = Some "dict" /\
  same (nth_error (marshal (Call (mkCall (PyInt 1677) "io.xconn.ping" (Some [VStr "arg1"]) (Some [(VStr "key", VStr "value")]) [(VStr "receive_progress", VBool true)] no_payload))) 5) (VDict [(VStr "key", VStr "value")]) = true.
Proof. now vm_compute. Qed.

(** tests/messages/test_challenge.py *)
Example challenge_test_parse_with_invalid_type :
  parses CChallenge (VStr "msg") = Raise (ValueError ["invalid message type str for CHALLENGE, type should be a list"]).
Proof. now vm_compute. Qed.
Example challenge_test_parse_with_invalid_min_length :
  parses CChallenge (VList [VInt 1]) = Raise (ValueError ["invalid message length 1, must be at least 3"]).
Proof. now vm_compute. Qed.
Example challenge_test_parse_with_invalid_max_length :
  parses CChallenge (VList [VInt 1; VInt 3; VInt 4; VInt 5]) = Raise (ValueError ["invalid message length 4, must be at most 3"]).
Proof. now vm_compute. Qed.
Example challenge_test_parse_with_invalid_message_type :
  parses CChallenge (VList [VInt 2; VStr "anonymous"; VDict []]) = Raise (ValueError ["invalid message id 2 for CHALLENGE, expected 4"]).
Proof. now vm_compute. Qed.
Example challenge_test_parse_with_invalid_authmethod_type :
  parses CChallenge (VList [VInt 4; VList [VStr "authmethod"]; VDict []]) = Raise (ValueError ["CHALLENGE: value at index 1 must be of type 'string' but was list"]).
Proof. now vm_compute. Qed.
Example challenge_test_parse_with_invalid_extra_type :
  parses CChallenge (VList [VInt 4; VStr "anonymous"; VStr "extra"]) = Raise (ValueError ["CHALLENGE: value at index 2 must be of type 'dict' but was str"]).
Proof. now vm_compute. Qed.
Example challenge_test_parse_correctly :
  succeeds (parses CChallenge (VList [VInt 4; VStr "cryptosign"; VDict [(VStr "channel_binding", VStr "tls-unique")]])) /\
  kind (attribute "authmethod" (parses CChallenge (VList [VInt 4; VStr "cryptosign"; VDict [(VStr "channel_binding", VStr "tls-unique")]]))) = Some "str" /\
  same (attribute "authmethod" (parses CChallenge (VList [VInt 4; VStr "cryptosign"; VDict [(VStr "channel_binding", VStr "tls-unique")]]))) (VStr "cryptosign") = true /\
  kind (attribute "extra" (parses CChallenge (VList [VInt 4; VStr "cryptosign"; VDict [(VStr "channel_binding", VStr "tls-unique")]]))) = Some "dict" /\
  same (attribute "extra" (parses CChallenge (VList [VInt 4; VStr "cryptosign"; VDict [(VStr "channel_binding", VStr "tls-unique")]]))) (VDict [(VStr "channel_binding", VStr "tls-unique")]) = true.
Proof. now vm_compute. Qed.
Example challenge_test_marshal_without_extra :
  kind (nth_error (marshal (Challenge (mkChallenge "cryptosign" []))) 0) = Some "int" /\
  same (nth_error (marshal (Challenge (mkChallenge "cryptosign" []))) 0) (VInt 4) = true /\
  kind (nth_error (marshal (Challenge (mkChallenge "cryptosign" []))) 1) = Some "str" /\
  same (nth_error (marshal (Challenge (mkChallenge "cryptosign" []))) 1) (VStr "cryptosign") = true /\
  same (nth_error (marshal (Challenge (mkChallenge "cryptosign" []))) 2) (VDict []) = true.
Proof. now vm_compute. Qed.
Example challenge_test_marshal_with_extra :
  kind (nth_error (marshal (Challenge (mkChallenge "wamp-scram" [(VStr "iterations", VInt 4096)]))) 0) = Some "int" /\
  same (nth_error (marshal (Challenge (mkChallenge "wamp-scram" [(VStr "iterations", VInt 4096)]))) 0) (VInt 4) = true /\
  kind (nth_error (marshal (Challenge (mkChallenge "wamp-scram" [(VStr "iterations", VInt 4096)]))) 1) = Some "str" /\
  same (nth_error (marshal (Challenge (mkChallenge "wamp-scram" [(VStr "iterations", VInt 4096)]))) 1) (VStr "wamp-scram") = true /\
  kind (nth_error (marshal (Challenge (mkChallenge "wamp-scram" [(VStr "iterations", VInt 4096)]))) 2) = Some "dict" /\
  same (nth_error (marshal (Challenge (mkChallenge "wamp-scram" [(VStr "iterations", VInt 4096)]))) 2) (VDict [(VStr "iterations", VInt 4096)]) = true.
Proof. now vm_compute. Qed.

(** tests/messages/test_goodbye.py *)
Example goodbye_test_parse_with_invalid_type :
  parses CGoodbye (VStr "msg") = Raise (ValueError ["invalid message type str for GOODBYE, type should be a list"]).
Proof. now vm_compute. Qed.
Example goodbye_test_parse_with_invalid_min_length :
  parses CGoodbye (VList [VStr "foo"]) = Raise (ValueError ["invalid message length 1, must be at least 3"]).
Proof. now vm_compute. Qed.
Example goodbye_test_parse_with_invalid_max_length :
  parses CGoodbye (VList [VStr "foo"; VInt 1; VInt 3; VInt 23]) = Raise (ValueError ["invalid message length 4, must be at most 3"]).
Proof. now vm_compute. Qed.
Example goodbye_test_parse_with_invalid_message_type :
  parses CGoodbye (VList [VInt 3; VDict []; VStr "wamp.close.close_realm"]) = Raise (ValueError ["invalid message id 3 for GOODBYE, expected 6"]).
Proof. now vm_compute. Qed.
Example goodbye_test_parse_with_invalid_detail_type :
  parses CGoodbye (VList [VInt 6; VStr "detail"; VStr "wamp.close.close_realm"]) = Raise (ValueError ["GOODBYE: value at index 1 must be of type 'dict' but was str"]).
Proof. now vm_compute. Qed.
Example goodbye_test_parse_with_reason_none :
  parses CGoodbye (VList [VInt 6; VDict []; VNone]) = Raise (ValueError ["GOODBYE: value at index 2 must be of type 'string' but was NoneType"]).
Proof. now vm_compute. Qed.
Example goodbye_test_parse_with_invalid_reason_type :
  parses CGoodbye (VList [VInt 6; VDict []; VList [VStr "wamp.close.close_realm"]]) = Raise (ValueError ["GOODBYE: value at index 2 must be of type 'string' but was list"]).
Proof. now vm_compute. Qed.
Example goodbye_test_parse_correctly :
  succeeds (parses CGoodbye (VList [VInt 6; VDict [(VStr "message", VStr "The host is shutting down now.")]; VStr "wamp.close.system_shutdown"])) /\
  kind (attribute "details" (parses CGoodbye (VList [VInt 6; VDict [(VStr "message", VStr "The host is shutting down now.")]; VStr "wamp.close.system_shutdown"]))) = Some "dict" /\
  same (attribute "details" (parses CGoodbye (VList [VInt 6; VDict [(VStr "message", VStr "The host is shutting down now.")]; VStr "wamp.close.system_shutdown"]))) (VDict [(VStr "message", VStr "The host is shutting down now.")]) = true /\
  kind (attribute "reason" (parses CGoodbye (VList [VInt 6; VDict [(VStr "message", VStr "The host is shutting down now.")]; VStr "wamp.close.system_shutdown"]))) = Some "str" /\
  same (attribute "reason" (parses CGoodbye (VList [VInt 6; VDict [(VStr "message", VStr "The host is shutting down now.")]; VStr "wamp.close.system_shutdown"]))) (VStr "wamp.close.system_shutdown") = true.
Proof. now vm_compute. Qed.
Example goodbye_test_marshal_with_empty_details :
  kind (nth_error (marshal (Goodbye (mkGoodbye [] "wamp.close.system_shutdown"))) 0) = Some "int" /\
  same (nth_error (marshal (Goodbye (mkGoodbye [] "wamp.close.system_shutdown"))) 0) (VInt 6) = true /\
  same (nth_error (marshal (Goodbye (mkGoodbye [] "wamp.close.system_shutdown"))) 1) (VDict []) = true /\
  kind (nth_error (marshal (Goodbye (mkGoodbye [] "wamp.close.system_shutdown"))) 2) = Some "str" /\
  same (nth_error (marshal (Goodbye (mkGoodbye [] "wamp.close.system_shutdown"))) 2) (VStr "wamp.close.system_shutdown") = true.
Proof. now vm_compute. Qed.
Example goodbye_test_marshal_with_details :
  kind (nth_error (marshal (Goodbye (mkGoodbye [(VStr "message", VStr "The host is shutting down now.")] "wamp.close.system_shutdown"))) 0) = Some "int" /\
  same (nth_error (marshal (Goodbye (mkGoodbye [(VStr "message", VStr "The host is shutting down now.")] "wamp.close.system_shutdown"))) 0) (VInt 6) = true /\
  kind (nth_error (marshal (Goodbye (mkGoodbye [(VStr "message", VStr "The host is shutting down now.")] "wamp.close.system_shutdown"))) 1) = Some "dict" /\
  same (nth_error (marshal (Goodbye (mkGoodbye [(VStr "message", VStr "The host is shutting down now.")] "wamp.close.system_shutdown"))) 1) (VDict [(VStr "message", VStr "The host is shutting down now.")]) = true /\
  kind (nth_error (marshal (Goodbye (mkGoodbye [(VStr "message", VStr "The host is shutting down now.")] "wamp.close.system_shutdown"))) 2) = Some "str" /\
  same (nth_error (marshal (Goodbye (mkGoodbye [(VStr "message", VStr "The host is shutting down now.")] "wamp.close.system_shutdown"))) 2) (VStr "wamp.close.system_shutdown") = true.
Proof. now vm_compute. Qed.

(** tests/messages/test_hello.py *)
Example hello_test_marshal_with_no_roles_and_details :
  length (marshal (Hello (mkHello "realm" [] None None None))) = 3%nat /\
  kind (nth_error (marshal (Hello (mkHello "realm" [] None None None))) 0) = Some "int" /\
  same (nth_error (marshal (Hello (mkHello "realm" [] None None None))) 0) (VInt 1) = true /\
  kind (nth_error (marshal (Hello (mkHello "realm" [] None None None))) 1) = Some "str" /\
  same (nth_error (marshal (Hello (mkHello "realm" [] None None None))) 1) (VStr "realm") = true /\
  kind (nth_error (marshal (Hello (mkHello "realm" [] None None None))) 2) = Some "dict" /\
  same (nth_error (marshal (Hello (mkHello "realm" [] None None None))) 2) (VDict [(VStr "roles", VDict [])]) = true.
Proof. now vm_compute. Qed.
Example hello_test_marshal_with_role_and_no_details :
  length (marshal (Hello (mkHello "realm" [(VStr "callee", VDict [])] None None None))) = 3%nat /\
  kind (nth_error (marshal (Hello (mkHello "realm" [(VStr "callee", VDict [])] None None None))) 0) = Some "int" /\
  same (nth_error (marshal (Hello (mkHello "realm" [(VStr "callee", VDict [])] None None None))) 0) (VInt 1) = true /\
  kind (nth_error (marshal (Hello (mkHello "realm" [(VStr "callee", VDict [])] None None None))) 1) = Some "str" /\
  same (nth_error (marshal (Hello (mkHello "realm" [(VStr "callee", VDict [])] None None None))) 1) (VStr "realm") = true /\
  kind (nth_error (marshal (Hello (mkHello "realm" [(VStr "callee", VDict [])] None None None))) 2) = Some "dict" /\
  same (nth_error (marshal (Hello (mkHello "realm" [(VStr "callee", VDict [])] None None None))) 2) (VDict [(VStr "roles", VDict [(VStr "callee", VDict [])])]) = true.
Proof. now vm_compute. Qed.
Example hello_test_marshal_with_authid :
  length (marshal (Hello (mkHello "realm" [(VStr "callee", VDict [])] (Some "mahad") None None))) = 3%nat /\
  kind (nth_error (marshal (Hello (mkHello "realm" [(VStr "callee", VDict [])] (Some "mahad") None None))) 0) = Some "int" /\
  same (nth_error (marshal (Hello (mkHello "realm" [(VStr "callee", VDict [])] (Some "mahad") None None))) 0) (VInt 1) = true /\
  kind (nth_error (marshal (Hello (mkHello "realm" [(VStr "callee", VDict [])] (Some "mahad") None None))) 1) = Some "str" /\
  same (nth_error (marshal (Hello (mkHello "realm" [(VStr "callee", VDict [])] (Some "mahad") None None))) 1) (VStr "realm") = true /\
  kind (nth_error (marshal (Hello (mkHello "realm" [(VStr "callee", VDict [])] (Some "mahad") None None))) 2) = Some "dict" /\
  same (nth_error (marshal (Hello (mkHello "realm" [(VStr "callee", VDict [])] (Some "mahad") None None))) 2) (VDict [(VStr "roles", VDict [(VStr "callee", VDict [])]); (VStr "authid", VStr "mahad")]) = true.
Proof. now vm_compute. Qed.
Example hello_test_marshal_with_authmethods :
  length (marshal (Hello (mkHello "realm" [(VStr "callee", VDict [])] None (Some [VStr "ticket"]) None))) = 3%nat /\
  kind (nth_error (marshal (Hello (mkHello "realm" [(VStr "callee", VDict [])] None (Some [VStr "ticket"]) None))) 0) = Some "int" /\
  same (nth_error (marshal (Hello (mkHello "realm" [(VStr "callee", VDict [])] None (Some [VStr "ticket"]) None))) 0) (VInt 1) = true /\
  kind (nth_error (marshal (Hello (mkHello "realm" [(VStr "callee", VDict [])] None (Some [VStr "ticket"]) None))) 1) = Some "str" /\
  same (nth_error (marshal (Hello (mkHello "realm" [(VStr "callee", VDict [])] None (Some [VStr "ticket"]) None))) 1) (VStr "realm") = true /\
  kind (nth_error (marshal (Hello (mkHello "realm" [(VStr "callee", VDict [])] None (Some [VStr "ticket"]) None))) 2) = Some "dict" /\
  same (nth_error (marshal (Hello (mkHello "realm" [(VStr "callee", VDict [])] None (Some [VStr "ticket"]) None))) 2) (VDict [(VStr "roles", VDict [(VStr "callee", VDict [])]); (VStr "authmethods", VList [VStr "ticket"])]) = true.
Proof. now vm_compute. Qed.
Example hello_test_marshal_with_authextra :
  length (marshal (Hello (mkHello "realm" [(VStr "callee", VDict [])] None None (Some [(VStr "authproivder", VStr "static")])))) = 3%nat /\
  kind (nth_error (marshal (Hello (mkHello "realm" [(VStr "callee", VDict [])] None None (Some [(VStr "authproivder", VStr "static")])))) 0) = Some "int" /\
  same (nth_error (marshal (Hello (mkHello "realm" [(VStr "callee", VDict [])] None None (Some [(VStr "authproivder", VStr "static")])))) 0) (VInt 1) = true /\
  kind (nth_error (marshal (Hello (mkHello "realm" [(VStr "callee", VDict [])] None None (Some [(VStr "authproivder", VStr "static")])))) 1) = Some "str" /\
  same (nth_error (marshal (Hello (mkHello "realm" [(VStr "callee", VDict [])] None None (Some [(VStr "authproivder", VStr "static")])))) 1) (VStr "realm") = true /\
  kind (nth_error (marshal (Hello (mkHello "realm" [(VStr "callee", VDict [])] None None (Some [(VStr "authproivder", VStr "static")])))) 2) = Some "dict" /\
  same (nth_error (marshal (Hello (mkHello "realm" [(VStr "callee", VDict [])] None None (Some [(VStr "authproivder", VStr "static")])))) 2) (VDict [(VStr "roles", VDict [(VStr "callee", VDict [])]); (VStr "authextra", VDict [(VStr "authproivder", VStr "static")])]) = true.
Proof. now vm_compute. Qed.
Example hello_test_marshal_with_role_authid :
  length (marshal (Hello (mkHello "realm" [(VStr "callee", VDict [])] (Some "mahad") None None))) = 3%nat /\
  kind (nth_error (marshal (Hello (mkHello "realm" [(VStr "callee", VDict [])] (Some "mahad") None None))) 0) = Some "int" /\
  same (nth_error (marshal (Hello (mkHello "realm" [(VStr "callee", VDict [])] (Some "mahad") None None))) 0) (VInt 1) = true /\
  kind (nth_error (marshal (Hello (mkHello "realm" [(VStr "callee", VDict [])] (Some "mahad") None None))) 1) = Some "str" /\
  same (nth_error (marshal (Hello (mkHello "realm" [(VStr "callee", VDict [])] (Some "mahad") None None))) 1) (VStr "realm") = true /\
  kind (nth_error (marshal (Hello (mkHello "realm" [(VStr "callee", VDict [])] (Some "mahad") None None))) 2) = Some "dict" /\
  same (nth_error (marshal (Hello (mkHello "realm" [(VStr "callee", VDict [])] (Some "mahad") None None))) 2) (VDict [(VStr "roles", VDict [(VStr "callee", VDict [])]); (VStr "authid", VStr "mahad")]) = true.
Proof. now vm_compute. Qed.
Example hello_test_marshal_with_role_authid_authmethods :
  length (marshal (Hello (mkHello "realm" [(VStr "callee", VDict [])] (Some "mahad") (Some [VStr "ticket"]) None))) = 3%nat /\
  kind (nth_error (marshal (Hello (mkHello "realm" [(VStr "callee", VDict [])] (Some "mahad") (Some [VStr "ticket"]) None))) 0) = Some "int" /\
  same (nth_error (marshal (Hello (mkHello "realm" [(VStr "callee", VDict [])] (Some "mahad") (Some [VStr "ticket"]) None))) 0) (VInt 1) = true /\
  kind (nth_error (marshal (Hello (mkHello "realm" [(VStr "callee", VDict [])] (Some "mahad") (Some [VStr "ticket"]) None))) 1) = Some "str" /\
  same (nth_error (marshal (Hello (mkHello "realm" [(VStr "callee", VDict [])] (Some "mahad") (Some [VStr "ticket"]) None))) 1) (VStr "realm") = true /\
  kind (nth_error (marshal (Hello (mkHello "realm" [(VStr "callee", VDict [])] (Some "mahad") (Some [VStr "ticket"]) None))) 2) = Some "dict" /\
  same (nth_error (marshal (Hello (mkHello "realm" [(VStr "callee", VDict [])] (Some "mahad") (Some [VStr "ticket"]) None))) 2) (VDict [(VStr "roles", VDict [(VStr "callee", VDict [])]); (VStr "authid", VStr "mahad"); (VStr "authmethods", VList [VStr "ticket"])]) = true.
Proof. now vm_compute. Qed.
Example hello_test_marshal_with_role_authid_authmethods_authextra :
  length (marshal (Hello (mkHello "realm" [(VStr "callee", VDict [])] (Some "mahad") (Some [VStr "ticket"]) (Some [(VStr "extra", VBool true)])))) = 3%nat /\
  kind (nth_error (marshal (Hello (mkHello "realm" [(VStr "callee", VDict [])] (Some "mahad") (Some [VStr "ticket"]) (Some [(VStr "extra", VBool true)])))) 0) = Some "int" /\
  same (nth_error (marshal (Hello (mkHello "realm" [(VStr "callee", VDict [])] (Some "mahad") (Some [VStr "ticket"]) (Some [(VStr "extra", VBool true)])))) 0) (VInt 1) = true /\
  kind (nth_error (marshal (Hello (mkHello "realm" [(VStr "callee", VDict [])] (Some "mahad") (Some [VStr "ticket"]) (Some [(VStr "extra", VBool true)])))) 1) = Some "str" /\
  same (nth_error (marshal (Hello (mkHello "realm" [(VStr "callee", VDict [])] (Some "mahad") (Some [VStr "ticket"]) (Some [(VStr "extra", VBool true)])))) 1) (VStr "realm") = true /\
  kind (nth_error (marshal (Hello (mkHello "realm" [(VStr "callee", VDict [])] (Some "mahad") (Some [VStr "ticket"]) (Some [(VStr "extra", VBool true)])))) 2) = Some "dict" /\
  same (nth_error (marshal (Hello (mkHello "realm" [(VStr "callee", VDict [])] (Some "mahad") (Some [VStr "ticket"]) (Some [(VStr "extra", VBool true)])))) 2) (VDict [(VStr "roles", VDict [(VStr "callee", VDict [])]); (VStr "authid", VStr "mahad"); (VStr "authmethods", VList [VStr "ticket"]); (VStr "authextra", VDict [(VStr "extra", VBool true)])]) = true.
Proof. now vm_compute. Qed.
Example hello_test_parse_with_invalid_type :
  parses CHello (VStr "msg") = Raise (ValueError ["invalid message type str for HELLO, type should be a list"]).
Proof. now vm_compute. Qed.
Example hello_test_parse_with_invalid_list_min_length :
  parses CHello (VList [VInt 1]) = Raise (ValueError ["invalid message length 1, must be at least 3"]).
Proof. now vm_compute. Qed.
Example hello_test_parse_with_invalid_list_max_length :
  parses CHello (VList [VInt 1; VInt 5; VInt 23; VInt 1]) = Raise (ValueError ["invalid message length 4, must be at most 3"]).
Proof. now vm_compute. Qed.
Example hello_test_parse_with_invalid_message_type :
  parses CHello (VList [VInt 2; VStr "realm"; VDict []]) = Raise (ValueError ["invalid message id 2 for HELLO, expected 1"]).
Proof. now vm_compute. Qed.
Example hello_test_parse_with_realm_none :
  parses CHello (VList [VInt 1; VNone; VDict [(VStr "roles", VDict [(VStr "callee", VDict [])])]]) = Raise (ValueError ["HELLO: value at index 1 must be of type 'string' but was NoneType"]).
Proof. now vm_compute. Qed.
Example hello_test_parse_with_invalid_realm_type :
  parses CHello (VList [VInt 1; VDict [(VStr "realm", VStr "realm1")]; VDict [(VStr "roles", VDict [(VStr "callee", VDict [])])]]) = Raise (ValueError ["HELLO: value at index 1 must be of type 'string' but was dict"]).
Proof. now vm_compute. Qed.
Example hello_test_parse_with_invalid_details_type :
  parses CHello (VList [VInt 1; VStr "realm1"; VStr "details"]) = Raise (ValueError ["HELLO: value at index 2 must be of type 'dict' but was str"]).
Proof. now vm_compute. Qed.
Example hello_test_parse_with_invalid_realm_and_details :
  parses CHello (VList [VInt 1; VDict [(VStr "realm", VInt 1)]; VDict [(VStr "authid", VInt 123); (VStr "role", VStr "new")]]) = Raise (ValueError ["HELLO: value at index 1 must be of type 'string' but was dict"; "HELLO: value at index 2 for key 'authid' must be of type 'string' but was int"; "HELLO: value at index 2 for key 'roles' must be of type 'dict' but was NoneType"]).
Proof. now vm_compute. Qed.
Example hello_test_parse_with_invalid_details_dict_key :
  parses CHello (VList [VInt 1; VStr "realm1"; VDict [(VInt 1, VStr "v")]]) = Raise (ValueError ["HELLO: value at index 2 for key 'roles' must be of type 'dict' but was NoneType"]).
Proof. now vm_compute. Qed.
Example hello_test_parse_with_invalid_role_type :
  parses CHello (VList [VInt 1; VStr "realm1"; VDict [(VStr "roles", VStr "new_role")]]) = Raise (ValueError ["HELLO: value at index 2 for key 'roles' must be of type 'dict' but was str"]).
Proof. now vm_compute. Qed.
Example hello_test_parse_with_empty_role :
  parses CHello (VList [VInt 1; VStr "realm1"; VDict [(VStr "roles", VDict [])]]) = Raise (ValueError ["HELLO: value at index 2 for roles key must be in ['callee', 'caller', 'publisher', 'subscriber', 'dealer', 'broker'] but was empty"]).
Proof. now vm_compute. Qed.
Example hello_test_parse_with_invalid_role_key :
  parses CHello (VList [VInt 1; VStr "realm1"; VDict [(VStr "roles", VDict [(VStr "new_role", VDict [])])]]) = Raise (ValueError ["HELLO: value at index 2 for roles key must be in ['callee', 'caller', 'publisher', 'subscriber', 'dealer', 'broker'] but was new_role"]).
Proof. now vm_compute. Qed.
Example hello_test_parse_with_invalid_authid :
  parses CHello (VList [VInt 1; VStr "realm1"; VDict [(VStr "roles", VDict [(VStr "callee", VDict [])]); (VStr "authid", VList [])]]) = Raise (ValueError ["HELLO: value at index 2 for key 'authid' must be of type 'string' but was list"]).
Proof. now vm_compute. Qed.
Example hello_test_parse_with_invalid_authmethods_type :
  parses CHello (VList [VInt 1; VStr "realm1"; VDict [(VStr "roles", VDict [(VStr "callee", VDict [])]); (VStr "authmethods", VStr "authmethods")]]) = Raise (ValueError ["HELLO: value at index 2 for key 'authmethods' must be of type 'list' but was str"]).
Proof. now vm_compute. Qed.
Example hello_test_parse_with_invalid_authextra_type :
  parses CHello (VList [VInt 1; VStr "realm1"; VDict [(VStr "roles", VDict [(VStr "callee", VDict [])]); (VStr "authextra", VStr "authextra")]]) = Raise (ValueError ["HELLO: value at index 2 for key 'authextra' must be of type 'dict' but was str"]).
Proof. now vm_compute. Qed.
Example hello_test_parse_with_valid_roles :
  succeeds (parses CHello (VList [VInt 1; VStr "realm1"; VDict [(VStr "roles", VDict [(VStr "callee", VDict [])])]])) /\
  kind (attribute "realm" (parses CHello (VList [VInt 1; VStr "realm1"; VDict [(VStr "roles", VDict [(VStr "callee", VDict [])])]]))) = Some "str" /\
  same (attribute "realm" (parses CHello (VList [VInt 1; VStr "realm1"; VDict [(VStr "roles", VDict [(VStr "callee", VDict [])])]]))) (VStr "realm1") = true /\
  kind (attribute "roles" (parses CHello (VList [VInt 1; VStr "realm1"; VDict [(VStr "roles", VDict [(VStr "callee", VDict [])])]]))) = Some "dict" /\
  same (attribute "roles" (parses CHello (VList [VInt 1; VStr "realm1"; VDict [(VStr "roles", VDict [(VStr "callee", VDict [])])]]))) (VDict [(VStr "callee", VDict [])]) = true /\
  same (attribute "authid" (parses CHello (VList [VInt 1; VStr "realm1"; VDict [(VStr "roles", VDict [(VStr "callee", VDict [])])]]))) (VNone) = true /\
  same (attribute "authmethods" (parses CHello (VList [VInt 1; VStr "realm1"; VDict [(VStr "roles", VDict [(VStr "callee", VDict [])])]]))) (VNone) = true /\
  same (attribute "authextra" (parses CHello (VList [VInt 1; VStr "realm1"; VDict [(VStr "roles", VDict [(VStr "callee", VDict [])])]]))) (VNone) = true /\
  succeeds (parses CHello (VList [VInt 1; VStr "realm1"; VDict [(VStr "roles", VDict [(VStr "caller", VDict [])])]])) /\
  kind (attribute "realm" (parses CHello (VList [VInt 1; VStr "realm1"; VDict [(VStr "roles", VDict [(VStr "caller", VDict [])])]]))) = Some "str" /\
  same (attribute "realm" (parses CHello (VList [VInt 1; VStr "realm1"; VDict [(VStr "roles", VDict [(VStr "caller", VDict [])])]]))) (VStr "realm1") = true /\
  kind (attribute "roles" (parses CHello (VList [VInt 1; VStr "realm1"; VDict [(VStr "roles", VDict [(VStr "caller", VDict [])])]]))) = Some "dict" /\
  same (attribute "roles" (parses CHello (VList [VInt 1; VStr "realm1"; VDict [(VStr "roles", VDict [(VStr "caller", VDict [])])]]))) (VDict [(VStr "caller", VDict [])]) = true /\
  same (attribute "authid" (parses CHello (VList [VInt 1; VStr "realm1"; VDict [(VStr "roles", VDict [(VStr "caller", VDict [])])]]))) (VNone) = true /\
  same (attribute "authmethods" (parses CHello (VList [VInt 1; VStr "realm1"; VDict [(VStr "roles", VDict [(VStr "caller", VDict [])])]]))) (VNone) = true /\
  same (attribute "authextra" (parses CHello (VList [VInt 1; VStr "realm1"; VDict [(VStr "roles", VDict [(VStr "caller", VDict [])])]]))) (VNone) = true /\
  succeeds (parses CHello (VList [VInt 1; VStr "realm1"; VDict [(VStr "roles", VDict [(VStr "publisher", VDict [])])]])) /\
  kind (attribute "realm" (parses CHello (VList [VInt 1; VStr "realm1"; VDict [(VStr "roles", VDict [(VStr "publisher", VDict [])])]]))) = Some "str" /\
  same (attribute "realm" (parses CHello (VList [VInt 1; VStr "realm1"; VDict [(VStr "roles", VDict [(VStr "publisher", VDict [])])]]))) (VStr "realm1") = true /\
  kind (attribute "roles" (parses CHello (VList [VInt 1; VStr "realm1"; VDict [(VStr "roles", VDict [(VStr "publisher", VDict [])])]]))) = Some "dict" /\
  same (attribute "roles" (parses CHello (VList [VInt 1; VStr "realm1"; VDict [(VStr "roles", VDict [(VStr "publisher", VDict [])])]]))) (VDict [(VStr "publisher", VDict [])]) = true /\
  same (attribute "authid" (parses CHello (VList [VInt 1; VStr "realm1"; VDict [(VStr "roles", VDict [(VStr "publisher", VDict [])])]]))) (VNone) = true /\
  same (attribute "authmethods" (parses CHello (VList [VInt 1; VStr "realm1"; VDict [(VStr "roles", VDict [(VStr "publisher", VDict [])])]]))) (VNone) = true /\
  same (attribute "authextra" (parses CHello (VList [VInt 1; VStr "realm1"; VDict [(VStr "roles", VDict [(VStr "publisher", VDict [])])]]))) (VNone) = true /\
  succeeds (parses CHello (VList [VInt 1; VStr "realm1"; VDict [(VStr "roles", VDict [(VStr "subscriber", VDict [])])]])) /\
  kind (attribute "realm" (parses CHello (VList [VInt 1; VStr "realm1"; VDict [(VStr "roles", VDict [(VStr "subscriber", VDict [])])]]))) = Some "str" /\
  same (attribute "realm" (parses CHello (VList [VInt 1; VStr "realm1"; VDict [(VStr "roles", VDict [(VStr "subscriber", VDict [])])]]))) (VStr "realm1") = true /\
  kind (attribute "roles" (parses CHello (VList [VInt 1; VStr "realm1"; VDict [(VStr "roles", VDict [(VStr "subscriber", VDict [])])]]))) = Some "dict" /\
  same (attribute "roles" (parses CHello (VList [VInt 1; VStr "realm1"; VDict [(VStr "roles", VDict [(VStr "subscriber", VDict [])])]]))) (VDict [(VStr "subscriber", VDict [])]) = true /\
  same (attribute "authid" (parses CHello (VList [VInt 1; VStr "realm1"; VDict [(VStr "roles", VDict [(VStr "subscriber", VDict [])])]]))) (VNone) = true /\
  same (attribute "authmethods" (parses CHello (VList [VInt 1; VStr "realm1"; VDict [(VStr "roles", VDict [(VStr "subscriber", VDict [])])]]))) (VNone) = true /\
  same (attribute "authextra" (parses CHello (VList [VInt 1; VStr "realm1"; VDict [(VStr "roles", VDict [(VStr "subscriber", VDict [])])]]))) (VNone) = true /\
  succeeds (parses CHello (VList [VInt 1; VStr "realm1"; VDict [(VStr "roles", VDict [(VStr "dealer", VDict [])])]])) /\
  kind (attribute "realm" (parses CHello (VList [VInt 1; VStr "realm1"; VDict [(VStr "roles", VDict [(VStr "dealer", VDict [])])]]))) = Some "str" /\
  same (attribute "realm" (parses CHello (VList [VInt 1; VStr "realm1"; VDict [(VStr "roles", VDict [(VStr "dealer", VDict [])])]]))) (VStr "realm1") = true /\
  kind (attribute "roles" (parses CHello (VList [VInt 1; VStr "realm1"; VDict [(VStr "roles", VDict [(VStr "dealer", VDict [])])]]))) = Some "dict" /\
  same (attribute "roles" (parses CHello (VList [VInt 1; VStr "realm1"; VDict [(VStr "roles", VDict [(VStr "dealer", VDict [])])]]))) (VDict [(VStr "dealer", VDict [])]) = true /\
  same (attribute "authid" (parses CHello (VList [VInt 1; VStr "realm1"; VDict [(VStr "roles", VDict [(VStr "dealer", VDict [])])]]))) (VNone) = true /\
  same (attribute "authmethods" (parses CHello (VList [VInt 1; VStr "realm1"; VDict [(VStr "roles", VDict [(VStr "dealer", VDict [])])]]))) (VNone) = true /\
  same (attribute "authextra" (parses CHello (VList [VInt 1; VStr "realm1"; VDict [(VStr "roles", VDict [(VStr "dealer", VDict [])])]]))) (VNone) = true /\
  succeeds (parses CHello (VList [VInt 1; VStr "realm1"; VDict [(VStr "roles", VDict [(VStr "broker", VDict [])])]])) /\
  kind (attribute "realm" (parses CHello (VList [VInt 1; VStr "realm1"; VDict [(VStr "roles", VDict [(VStr "broker", VDict [])])]]))) = Some "str" /\
  same (attribute "realm" (parses CHello (VList [VInt 1; VStr "realm1"; VDict [(VStr "roles", VDict [(VStr "broker", VDict [])])]]))) (VStr "realm1") = true /\
  kind (attribute "roles" (parses CHello (VList [VInt 1; VStr "realm1"; VDict [(VStr "roles", VDict [(VStr "broker", VDict [])])]]))) = Some "dict" /\
  same (attribute "roles" (parses CHello (VList [VInt 1; VStr "realm1"; VDict [(VStr "roles", VDict [(VStr "broker", VDict [])])]]))) (VDict [(VStr "broker", VDict [])]) = true /\
  same (attribute "authid" (parses CHello (VList [VInt 1; VStr "realm1"; VDict [(VStr "roles", VDict [(VStr "broker", VDict [])])]]))) (VNone) = true /\
  same (attribute "authmethods" (parses CHello (VList [VInt 1; VStr "realm1"; VDict [(VStr "roles", VDict [(VStr "broker", VDict [])])]]))) (VNone) = true /\
  same (attribute "authextra" (parses CHello (VList [VInt 1; VStr "realm1"; VDict [(VStr "roles", VDict [(VStr "broker", VDict [])])]]))) (VNone) = true.
Proof. now vm_compute. Qed.
Example hello_test_parse_with_multiple_roles :
  succeeds (parses CHello (VList [VInt 1; VStr "realm1"; VDict [(VStr "roles", VDict [(VStr "callee", VDict []); (VStr "caller", VDict [])])]])) /\
  kind (attribute "realm" (parses CHello (VList [VInt 1; VStr "realm1"; VDict [(VStr "roles", VDict [(VStr "callee", VDict []); (VStr "caller", VDict [])])]]))) = Some "str" /\
  same (attribute "realm" (parses CHello (VList [VInt 1; VStr "realm1"; VDict [(VStr "roles", VDict [(VStr "callee", VDict []); (VStr "caller", VDict [])])]]))) (VStr "realm1") = true /\
  kind (attribute "roles" (parses CHello (VList [VInt 1; VStr "realm1"; VDict [(VStr "roles", VDict [(VStr "callee", VDict []); (VStr "caller", VDict [])])]]))) = Some "dict" /\
  same (attribute "roles" (parses CHello (VList [VInt 1; VStr "realm1"; VDict [(VStr "roles", VDict [(VStr "callee", VDict []); (VStr "caller", VDict [])])]]))) (VDict [(VStr "callee", VDict []); (VStr "caller", VDict [])]) = true /\
  same (attribute "authid" (parses CHello (VList [VInt 1; VStr "realm1"; VDict [(VStr "roles", VDict [(VStr "callee", VDict []); (VStr "caller", VDict [])])]]))) (VNone) = true /\
  same (attribute "authmethods" (parses CHello (VList [VInt 1; VStr "realm1"; VDict [(VStr "roles", VDict [(VStr "callee", VDict []); (VStr "caller", VDict [])])]]))) (VNone) = true /\
  same (attribute "authextra" (parses CHello (VList [VInt 1; VStr "realm1"; VDict [(VStr "roles", VDict [(VStr "callee", VDict []); (VStr "caller", VDict [])])]]))) (VNone) = true.
Proof. now vm_compute. Qed.
Example hello_test_parse_with_authid :
  succeeds (parses CHello (VList [VInt 1; VStr "realm1"; VDict [(VStr "roles", VDict [(VStr "callee", VDict [])]); (VStr "authid", VStr "mahad")]])) /\
  kind (attribute "realm" (parses CHello (VList [VInt 1; VStr "realm1"; VDict [(VStr "roles", VDict [(VStr "callee", VDict [])]); (VStr "authid", VStr "mahad")]]))) = Some "str" /\
  same (attribute "realm" (parses CHello (VList [VInt 1; VStr "realm1"; VDict [(VStr "roles", VDict [(VStr "callee", VDict [])]); (VStr "authid", VStr "mahad")]]))) (VStr "realm1") = true /\
  kind (attribute "roles" (parses CHello (VList [VInt 1; VStr "realm1"; VDict [(VStr "roles", VDict [(VStr "callee", VDict [])]); (VStr "authid", VStr "mahad")]]))) = Some "dict" /\
  same (attribute "roles" (parses CHello (VList [VInt 1; VStr "realm1"; VDict [(VStr "roles", VDict [(VStr "callee", VDict [])]); (VStr "authid", VStr "mahad")]]))) (VDict [(VStr "callee", VDict [])]) = true /\
  kind (attribute "authid" (parses CHello (VList [VInt 1; VStr "realm1"; VDict [(VStr "roles", VDict [(VStr "callee", VDict [])]); (VStr "authid", VStr "mahad")]]))) = Some "str" /\
  same (attribute "authid" (parses CHello (VList [VInt 1; VStr "realm1"; VDict [(VStr "roles", VDict [(VStr "callee", VDict [])]); (VStr "authid", VStr "mahad")]]))) (VStr "mahad") = true /\
  same (attribute "authmethods" (parses CHello (VList [VInt 1; VStr "realm1"; VDict [(VStr "roles", VDict [(VStr "callee", VDict [])]); (VStr "authid", VStr "mahad")]]))) (VNone) = true /\
  same (attribute "authextra" (parses CHello (VList [VInt 1; VStr "realm1"; VDict [(VStr "roles", VDict [(VStr "callee", VDict [])]); (VStr "authid", VStr "mahad")]]))) (VNone) = true.
Proof. now vm_compute. Qed.
Example hello_test_parse_with_authmethods :
  succeeds (parses CHello (VList [VInt 1; VStr "realm1"; VDict [(VStr "roles", VDict [(VStr "callee", VDict [])]); (VStr "authmethods", VList [VStr "wampcra"])]])) /\
  kind (attribute "realm" (parses CHello (VList [VInt 1; VStr "realm1"; VDict [(VStr "roles", VDict [(VStr "callee", VDict [])]); (VStr "authmethods", VList [VStr "wampcra"])]]))) = Some "str" /\
  same (attribute "realm" (parses CHello (VList [VInt 1; VStr "realm1"; VDict [(VStr "roles", VDict [(VStr "callee", VDict [])]); (VStr "authmethods", VList [VStr "wampcra"])]]))) (VStr "realm1") = true /\
  kind (attribute "roles" (parses CHello (VList [VInt 1; VStr "realm1"; VDict [(VStr "roles", VDict [(VStr "callee", VDict [])]); (VStr "authmethods", VList [VStr "wampcra"])]]))) = Some "dict" /\
  same (attribute "roles" (parses CHello (VList [VInt 1; VStr "realm1"; VDict [(VStr "roles", VDict [(VStr "callee", VDict [])]); (VStr "authmethods", VList [VStr "wampcra"])]]))) (VDict [(VStr "callee", VDict [])]) = true /\
  kind (attribute "authmethods" (parses CHello (VList [VInt 1; VStr "realm1"; VDict [(VStr "roles", VDict [(VStr "callee", VDict [])]); (VStr "authmethods", VList [VStr "wampcra"])]]))) = Some "list" /\
  size (attribute "authmethods" (parses CHello (VList [VInt 1; VStr "realm1"; VDict [(VStr "roles", VDict [(VStr "callee", VDict [])]); (VStr "authmethods", VList [VStr "wampcra"])]]))) = Some 1%nat /\
  same (element (attribute "authmethods" (parses CHello (VList [VInt 1; VStr "realm1"; VDict [(VStr "roles", VDict [(VStr "callee", VDict [])]); (VStr "authmethods", VList [VStr "wampcra"])]]))) 0) (VStr "wampcra") = true /\
  same (attribute "authid" (parses CHello (VList [VInt 1; VStr "realm1"; VDict [(VStr "roles", VDict [(VStr "callee", VDict [])]); (VStr "authmethods", VList [VStr "wampcra"])]]))) (VNone) = true /\
  same (attribute "authextra" (parses CHello (VList [VInt 1; VStr "realm1"; VDict [(VStr "roles", VDict [(VStr "callee", VDict [])]); (VStr "authmethods", VList [VStr "wampcra"])]]))) (VNone) = true.
Proof. now vm_compute. Qed.
Example hello_test_parse_with_authextra :
  succeeds (parses CHello (VList [VInt 1; VStr "realm1"; VDict [(VStr "roles", VDict [(VStr "callee", VDict [])]); (VStr "authextra", VDict [(VStr "extra", VBool true)])]])) /\
  kind (attribute "realm" (parses CHello (VList [VInt 1; VStr "realm1"; VDict [(VStr "roles", VDict [(VStr "callee", VDict [])]); (VStr "authextra", VDict [(VStr "extra", VBool true)])]]))) = Some "str" /\
  same (attribute "realm" (parses CHello (VList [VInt 1; VStr "realm1"; VDict [(VStr "roles", VDict [(VStr "callee", VDict [])]); (VStr "authextra", VDict [(VStr "extra", VBool true)])]]))) (VStr "realm1") = true /\
  kind (attribute "roles" (parses CHello (VList [VInt 1; VStr "realm1"; VDict [(VStr "roles", VDict [(VStr "callee", VDict [])]); (VStr "authextra", VDict [(VStr "extra", VBool true)])]]))) = Some "dict" /\
  same (attribute "roles" (parses CHello (VList [VInt 1; VStr "realm1"; VDict [(VStr "roles", VDict [(VStr "callee", VDict [])]); (VStr "authextra", VDict [(VStr "extra", VBool true)])]]))) (VDict [(VStr "callee", VDict [])]) = true /\
  kind (attribute "authextra" (parses CHello (VList [VInt 1; VStr "realm1"; VDict [(VStr "roles", VDict [(VStr "callee", VDict [])]); (VStr "authextra", VDict [(VStr "extra", VBool true)])]]))) = Some "dict" /\
  size (attribute "authextra" (parses CHello (VList [VInt 1; VStr "realm1"; VDict [(VStr "roles", VDict [(VStr "callee", VDict [])]); (VStr "authextra", VDict [(VStr "extra", VBool true)])]]))) = Some 1%nat /\
  same (attribute "authextra" (parses CHello (VList [VInt 1; VStr "realm1"; VDict [(VStr "roles", VDict [(VStr "callee", VDict [])]); (VStr "authextra", VDict [(VStr "extra", VBool true)])]]))) (VDict [(VStr "extra", VBool true)]) = true /\
  same (attribute "authid" (parses CHello (VList [VInt 1; VStr "realm1"; VDict [(VStr "roles", VDict [(VStr "callee", VDict [])]); (VStr "authextra", VDict [(VStr "extra", VBool true)])]]))) (VNone) = true /\
  same (attribute "authmethods" (parses CHello (VList [VInt 1; VStr "realm1"; VDict [(VStr "roles", VDict [(VStr "callee", VDict [])]); (VStr "authextra", VDict [(VStr "extra", VBool true)])]]))) (VNone) = true.
Proof. now vm_compute. Qed.
Example hello_test_parse_with_authid_authmethods :
  succeeds (parses CHello (VList [VInt 1; VStr "realm1"; VDict [(VStr "roles", VDict [(VStr "callee", VDict [])]); (VStr "authid", VStr "mahad"); (VStr "authmethods", VList [VStr "wampcra"])]])) /\
  kind (attribute "realm" (parses CHello (VList [VInt 1; VStr "realm1"; VDict [(VStr "roles", VDict [(VStr "callee", VDict [])]); (VStr "authid", VStr "mahad"); (VStr "authmethods", VList [VStr "wampcra"])]]))) = Some "str" /\
  same (attribute "realm" (parses CHello (VList [VInt 1; VStr "realm1"; VDict [(VStr "roles", VDict [(VStr "callee", VDict [])]); (VStr "authid", VStr "mahad"); (VStr "authmethods", VList [VStr "wampcra"])]]))) (VStr "realm1") = true /\
  kind (attribute "roles" (parses CHello (VList [VInt 1; VStr "realm1"; VDict [(VStr "roles", VDict [(VStr "callee", VDict [])]); (VStr "authid", VStr "mahad"); (VStr "authmethods", VList [VStr "wampcra"])]]))) = Some "dict" /\
  same (attribute "roles" (parses CHello (VList [VInt 1; VStr "realm1"; VDict [(VStr "roles", VDict [(VStr "callee", VDict [])]); (VStr "authid", VStr "mahad"); (VStr "authmethods", VList [VStr "wampcra"])]]))) (VDict [(VStr "callee", VDict [])]) = true /\
  kind (attribute "authid" (parses CHello (VList [VInt 1; VStr "realm1"; VDict [(VStr "roles", VDict [(VStr "callee", VDict [])]); (VStr "authid", VStr "mahad"); (VStr "authmethods", VList [VStr "wampcra"])]]))) = Some "str" /\
  same (attribute "authid" (parses CHello (VList [VInt 1; VStr "realm1"; VDict [(VStr "roles", VDict [(VStr "callee", VDict [])]); (VStr "authid", VStr "mahad"); (VStr "authmethods", VList [VStr "wampcra"])]]))) (VStr "mahad") = true /\
  kind (attribute "authmethods" (parses CHello (VList [VInt 1; VStr "realm1"; VDict [(VStr "roles", VDict [(VStr "callee", VDict [])]); (VStr "authid", VStr "mahad"); (VStr "authmethods", VList [VStr "wampcra"])]]))) = Some "list" /\
  size (attribute "authmethods" (parses CHello (VList [VInt 1; VStr "realm1"; VDict [(VStr "roles", VDict [(VStr "callee", VDict [])]); (VStr "authid", VStr "mahad"); (VStr "authmethods", VList [VStr "wampcra"])]]))) = Some 1%nat /\
  same (element (attribute "authmethods" (parses CHello (VList [VInt 1; VStr "realm1"; VDict [(VStr "roles", VDict [(VStr "callee", VDict [])]); (VStr "authid", VStr "mahad"); (VStr "authmethods", VList [VStr "wampcra"])]]))) 0) (VStr "wampcra") = true /\
  same (attribute "authextra" (parses CHello (VList [VInt 1; VStr "realm1"; VDict [(VStr "roles", VDict [(VStr "callee", VDict [])]); (VStr "authid", VStr "mahad"); (VStr "authmethods", VList [VStr "wampcra"])]]))) (VNone) = true.
Proof. now vm_compute. Qed.
Example hello_test_parse_with_authid_authmethods_authextra :
  succeeds (parses CHello (VList [VInt 1; VStr "realm1"; VDict [(VStr "roles", VDict [(VStr "callee", VDict [])]); (VStr "authid", VStr "mahad"); (VStr "authmethods", VList [VStr "wampcra"]); (VStr "authextra", VDict [(VStr "provider", VStr "dynamic")])]])) /\
  kind (attribute "realm" (parses CHello (VList [VInt 1; VStr "realm1"; VDict [(VStr "roles", VDict [(VStr "callee", VDict [])]); (VStr "authid", VStr "mahad"); (VStr "authmethods", VList [VStr "wampcra"]); (VStr "authextra", VDict [(VStr "provider", VStr "dynamic")])]]))) = Some "str" /\
  same (attribute "realm" (parses CHello (VList [VInt 1; VStr "realm1"; VDict [(VStr "roles", VDict [(VStr "callee", VDict [])]); (VStr "authid", VStr "mahad"); (VStr "authmethods", VList [VStr "wampcra"]); (VStr "authextra", VDict [(VStr "provider", VStr "dynamic")])]]))) (VStr "realm1") = true /\
  kind (attribute "roles" (parses CHello (VList [VInt 1; VStr "realm1"; VDict [(VStr "roles", VDict [(VStr "callee", VDict [])]); (VStr "authid", VStr "mahad"); (VStr "authmethods", VList [VStr "wampcra"]); (VStr "authextra", VDict [(VStr "provider", VStr "dynamic")])]]))) = Some "dict" /\
  same (attribute "roles" (parses CHello (VList [VInt 1; VStr "realm1"; VDict [(VStr "roles", VDict [(VStr "callee", VDict [])]); (VStr "authid", VStr "mahad"); (VStr "authmethods", VList [VStr "wampcra"]); (VStr "authextra", VDict [(VStr "provider", VStr "dynamic")])]]))) (VDict [(VStr "callee", VDict [])]) = true /\
  kind (attribute "authid" (parses CHello (VList [VInt 1; VStr "realm1"; VDict [(VStr "roles", VDict [(VStr "callee", VDict [])]); (VStr "authid", VStr "mahad"); (VStr "authmethods", VList [VStr "wampcra"]); (VStr "authextra", VDict [(VStr "provider", VStr "dynamic")])]]))) = Some "str" /\
  same (attribute "authid" (parses CHello (VList [VInt 1; VStr "realm1"; VDict [(VStr "roles", VDict [(VStr "callee", VDict [])]); (VStr "authid", VStr "mahad"); (VStr "authmethods", VList [VStr "wampcra"]); (VStr "authextra", VDict [(VStr "provider", VStr "dynamic")])]]))) (VStr "mahad") = true /\
  kind (attribute "authmethods" (parses CHello (VList [VInt 1; VStr "realm1"; VDict [(VStr "roles", VDict [(VStr "callee", VDict [])]); (VStr "authid", VStr "mahad"); (VStr "authmethods", VList [VStr "wampcra"]); (VStr "authextra", VDict [(VStr "provider", VStr "dynamic")])]]))) = Some "list" /\
  size (attribute "authmethods" (parses CHello (VList [VInt 1; VStr "realm1"; VDict [(VStr "roles", VDict [(VStr "callee", VDict [])]); (VStr "authid", VStr "mahad"); (VStr "authmethods", VList [VStr "wampcra"]); (VStr "authextra", VDict [(VStr "provider", VStr "dynamic")])]]))) = Some 1%nat /\
  same (element (attribute "authmethods" (parses CHello (VList [VInt 1; VStr "realm1"; VDict [(VStr "roles", VDict [(VStr "callee", VDict [])]); (VStr "authid", VStr "mahad"); (VStr "authmethods", VList [VStr "wampcra"]); (VStr "authextra", VDict [(VStr "provider", VStr "dynamic")])]]))) 0) (VStr "wampcra") = true /\
  kind (attribute "authextra" (parses CHello (VList [VInt 1; VStr "realm1"; VDict [(VStr "roles", VDict [(VStr "callee", VDict [])]); (VStr "authid", VStr "mahad"); (VStr "authmethods", VList [VStr "wampcra"]); (VStr "authextra", VDict [(VStr "provider", VStr "dynamic")])]]))) = Some "dict" /\
  size (attribute "authextra" (parses CHello (VList [VInt 1; VStr "realm1"; VDict [(VStr "roles", VDict [(VStr "callee", VDict [])]); (VStr "authid", VStr "mahad"); (VStr "authmethods", VList [VStr "wampcra"]); (VStr "authextra", VDict [(VStr "provider", VStr "dynamic")])]]))) = Some 1%nat /\
  same (attribute "authextra" (parses CHello (VList [VInt 1; VStr "realm1"; VDict [(VStr "roles", VDict [(VStr "callee", VDict [])]); (VStr "authid", VStr "mahad"); (VStr "authmethods", VList [VStr "wampcra"]); (VStr "authextra", VDict [(VStr "provider", VStr "dynamic")])]]))) (VDict [(VStr "provider", VStr "dynamic")]) = true.
Proof. now vm_compute. Qed.

(** tests/messages/test_invocation.py *)
Example invocation_test_parse_with_invalid_type :
  parses CInvocation (VStr "new message") = Raise (ValueError ["invalid message type str for INVOCATION, type should be a list"]).
Proof. now vm_compute. Qed.
Example invocation_test_parse_with_invalid_list_min_length :
  parses CInvocation (VList [VStr "bar"]) = Raise (ValueError ["invalid message length 1, must be at least 4"]).
Proof. now vm_compute. Qed.
Example invocation_test_parse_with_invalid_list_max_length :
  parses CInvocation (VList [VStr "bar"; VInt 1; VInt 3; VInt 443; VInt 23; VInt 432; VInt 2]) = Raise (ValueError ["invalid message length 7, must be at most 6"]).
Proof. now vm_compute. Qed.
Example invocation_test_parse_with_invalid_message_type :
  parses CInvocation (VList [VInt 9; VInt 123; VInt 456; VDict []]) = Raise (ValueError ["invalid message id 9 for INVOCATION, expected 68"]).
Proof. now vm_compute. Qed.
Example invocation_test_parse_with_negative_request_id :
  parses CInvocation (VList [VInt 68; VInt (-1); VInt 365; VDict []]) = Raise (ValueError ["INVOCATION: value at index 1 must be between '1' and '9007199254740992' but was -1"]).
Proof. now vm_compute. Qed.
Example invocation_test_parse_with_out_of_range_request_value :
  parses CInvocation (VList [VInt 68; VInt 9007199254740993; VInt 23; VDict []]) = Raise (ValueError ["INVOCATION: value at index 1 must be between '1' and '9007199254740992' but was 9007199254740993"]).
Proof. now vm_compute. Qed.
Example invocation_test_parse_with_negative_registration_id :
  parses CInvocation (VList [VInt 68; VInt 17; VInt (-39); VDict []]) = Raise (ValueError ["INVOCATION: value at index 2 must be between '1' and '9007199254740992' but was -39"]).
Proof. now vm_compute. Qed.
Example invocation_test_parse_with_out_of_range_registration_value :
  parses CInvocation (VList [VInt 68; VInt 80; VInt 9007199254740993; VDict []]) = Raise (ValueError ["INVOCATION: value at index 2 must be between '1' and '9007199254740992' but was 9007199254740993"]).
Proof. now vm_compute. Qed.
Example invocation_test_parse_with_invalid_options_type :
  parses CInvocation (VList [VInt 68; VInt 80; VInt 753; VList [VStr "options"]]) = Raise (ValueError ["INVOCATION: value at index 3 must be of type 'dict' but was list"]).
Proof. now vm_compute. Qed.
Example invocation_test_parse_with_invalid_args_type :
  parses CInvocation (VList [VInt 68; VInt 370; VInt 98; VDict []; VStr "args"]) = Raise (ValueError ["INVOCATION: value at index 4 must be of type 'list' but was str"]).
Proof. now vm_compute. Qed.
Example invocation_test_parse_with_invalid_kwargs_type :
  parses CInvocation (VList [VInt 68; VInt 67; VInt 147; VDict []; VList []; VList [VStr "kwargs"]]) = Raise (ValueError ["INVOCATION: value at index 5 must be of type 'dict' but was list"]).
Proof. now vm_compute. Qed.
Example invocation_test_parse_correctly :
  succeeds (parses CInvocation (VList [VInt 68; VInt 74; VInt 14; VDict []])) /\
  kind (attribute "request_id" (parses CInvocation (VList [VInt 68; VInt 74; VInt 14; VDict []]))) = Some "int" /\
  same (attribute "request_id" (parses CInvocation (VList [VInt 68; VInt 74; VInt 14; VDict []]))) (VInt 74) = true /\
  kind (attribute "registration_id" (parses CInvocation (VList [VInt 68; VInt 74; VInt 14; VDict []]))) = Some "int" /\
  same (attribute "registration_id" (parses CInvocation (VList [VInt 68; VInt 74; VInt 14; VDict []]))) (VInt 14) = true /\
  same (attribute "args" (parses CInvocation (VList [VInt 68; VInt 74; VInt 14; VDict []]))) (VNone) = true /\
  same (attribute "kwargs" (parses CInvocation (VList [VInt 68; VInt 74; VInt 14; VDict []]))) (VNone) = true /\
  same (attribute "details" (parses CInvocation (VList [VInt 68; VInt 74; VInt 14; VDict []]))) (VDict []) = true.
Proof. now vm_compute. Qed.
Example invocation_test_parse_correctly_with_options :
  succeeds (parses CInvocation (VList [VInt 68; VInt 741; VInt 142; VDict [(VStr "extra", VBool true)]])) /\
  kind (attribute "request_id" (parses CInvocation (VList [VInt 68; VInt 741; VInt 142; VDict [(VStr "extra", VBool true)]]))) = Some "int" /\
  same (attribute "request_id" (parses CInvocation (VList [VInt 68; VInt 741; VInt 142; VDict [(VStr "extra", VBool true)]]))) (VInt 741) = true /\
  kind (attribute "registration_id" (parses CInvocation (VList [VInt 68; VInt 741; VInt 142; VDict [(VStr "extra", VBool true)]]))) = Some "int" /\
  same (attribute "registration_id" (parses CInvocation (VList [VInt 68; VInt 741; VInt 142; VDict [(VStr "extra", VBool true)]]))) (VInt 142) = true /\
  same (attribute "details" (parses CInvocation (VList [VInt 68; VInt 741; VInt 142; VDict [(VStr "extra", VBool true)]]))) (VDict [(VStr "extra", VBool true)]) = true /\
  same (attribute "args" (parses CInvocation (VList [VInt 68; VInt 741; VInt 142; VDict [(VStr "extra", VBool true)]]))) (VNone) = true /\
  same (attribute "kwargs" (parses CInvocation (VList [VInt 68; VInt 741; VInt 142; VDict [(VStr "extra", VBool true)]]))) (VNone) = true.
Proof. now vm_compute. Qed.
Example invocation_test_parse_correctly_with_args :
  succeeds (parses CInvocation (VList [VInt 68; VInt 741; VInt 142; VDict []; VList [VInt 1; VInt 2]])) /\
  kind (attribute "request_id" (parses CInvocation (VList [VInt 68; VInt 741; VInt 142; VDict []; VList [VInt 1; VInt 2]]))) = Some "int" /\
  same (attribute "request_id" (parses CInvocation (VList [VInt 68; VInt 741; VInt 142; VDict []; VList [VInt 1; VInt 2]]))) (VInt 741) = true /\
  kind (attribute "registration_id" (parses CInvocation (VList [VInt 68; VInt 741; VInt 142; VDict []; VList [VInt 1; VInt 2]]))) = Some "int" /\
  same (attribute "registration_id" (parses CInvocation (VList [VInt 68; VInt 741; VInt 142; VDict []; VList [VInt 1; VInt 2]]))) (VInt 142) = true /\
  kind (attribute "args" (parses CInvocation (VList [VInt 68; VInt 741; VInt 142; VDict []; VList [VInt 1; VInt 2]]))) = Some "list" /\
  same (attribute "args" (parses CInvocation (VList [VInt 68; VInt 741; VInt 142; VDict []; VList [VInt 1; VInt 2]]))) (VList [VInt 1; VInt 2]) = true /\
  same (attribute "kwargs" (parses CInvocation (VList [VInt 68; VInt 741; VInt 142; VDict []; VList [VInt 1; VInt 2]]))) (VNone) = true /\
  same (attribute "details" (parses CInvocation (VList [VInt 68; VInt 741; VInt 142; VDict []; VList [VInt 1; VInt 2]]))) (VDict []) = true.
Proof. now vm_compute. Qed.
Example invocation_test_parse_correctly_with_kwargs :
  succeeds (parses CInvocation (VList [VInt 68; VInt 73; VInt 12; VDict []; VList []; VDict [(VStr "fruit", VStr "grape")]])) /\
  kind (attribute "request_id" (parses CInvocation (VList [VInt 68; VInt 73; VInt 12; VDict []; VList []; VDict [(VStr "fruit", VStr "grape")]]))) = Some "int" /\
  same (attribute "request_id" (parses CInvocation (VList [VInt 68; VInt 73; VInt 12; VDict []; VList []; VDict [(VStr "fruit", VStr "grape")]]))) (VInt 73) = true /\
  kind (attribute "registration_id" (parses CInvocation (VList [VInt 68; VInt 73; VInt 12; VDict []; VList []; VDict [(VStr "fruit", VStr "grape")]]))) = Some "int" /\
  same (attribute "registration_id" (parses CInvocation (VList [VInt 68; VInt 73; VInt 12; VDict []; VList []; VDict [(VStr "fruit", VStr "grape")]]))) (VInt 12) = true /\
  kind (attribute "kwargs" (parses CInvocation (VList [VInt 68; VInt 73; VInt 12; VDict []; VList []; VDict [(VStr "fruit", VStr "grape")]]))) = Some "dict" /\
  same (attribute "kwargs" (parses CInvocation (VList [VInt 68; VInt 73; VInt 12; VDict []; VList []; VDict [(VStr "fruit", VStr "grape")]]))) (VDict [(VStr "fruit", VStr "grape")]) = true /\
  same (attribute "args" (parses CInvocation (VList [VInt 68; VInt 73; VInt 12; VDict []; VList []; VDict [(VStr "fruit", VStr "grape")]]))) (VList []) = true /\
  same (attribute "details" (parses CInvocation (VList [VInt 68; VInt 73; VInt 12; VDict []; VList []; VDict [(VStr "fruit", VStr "grape")]]))) (VDict []) = true.
Proof. now vm_compute. Qed.
Example invocation_test_parse_correctly_with_all_options :
  succeeds (parses CInvocation (VList [VInt 68; VInt 673; VInt 152; VDict [(VStr "caller_authrole", VStr "user")]; VList [VStr "1st"]; VDict [(VStr "fruit", VStr "apple")]])) /\
  kind (attribute "request_id" (parses CInvocation (VList [VInt 68; VInt 673; VInt 152; VDict [(VStr "caller_authrole", VStr "user")]; VList [VStr "1st"]; VDict [(VStr "fruit", VStr "apple")]]))) = Some "int" /\
  same (attribute "request_id" (parses CInvocation (VList [VInt 68; VInt 673; VInt 152; VDict [(VStr "caller_authrole", VStr "user")]; VList [VStr "1st"]; VDict [(VStr "fruit", VStr "apple")]]))) (VInt 673) = true /\
  kind (attribute "registration_id" (parses CInvocation (VList [VInt 68; VInt 673; VInt 152; VDict [(VStr "caller_authrole", VStr "user")]; VList [VStr "1st"]; VDict [(VStr "fruit", VStr "apple")]]))) = Some "int" /\
  same (attribute "registration_id" (parses CInvocation (VList [VInt 68; VInt 673; VInt 152; VDict [(VStr "caller_authrole", VStr "user")]; VList [VStr "1st"]; VDict [(VStr "fruit", VStr "apple")]]))) (VInt 152) = true /\
  kind (attribute "args" (parses CInvocation (VList [VInt 68; VInt 673; VInt 152; VDict [(VStr "caller_authrole", VStr "user")]; VList [VStr "1st"]; VDict [(VStr "fruit", VStr "apple")]]))) = Some "list" /\
  same (attribute "args" (parses CInvocation (VList [VInt 68; VInt 673; VInt 152; VDict [(VStr "caller_authrole", VStr "user")]; VList [VStr "1st"]; VDict [(VStr "fruit", VStr "apple")]]))) (VList [VStr "1st"]) = true /\
  kind (attribute "kwargs" (parses CInvocation (VList [VInt 68; VInt 673; VInt 152; VDict [(VStr "caller_authrole", VStr "user")]; VList [VStr "1st"]; VDict [(VStr "fruit", VStr "apple")]]))) = Some "dict" /\
  same (attribute "kwargs" (parses CInvocation (VList [VInt 68; VInt 673; VInt 152; VDict [(VStr "caller_authrole", VStr "user")]; VList [VStr "1st"]; VDict [(VStr "fruit", VStr "apple")]]))) (VDict [(VStr "fruit", VStr "apple")]) = true /\
  kind (attribute "details" (parses CInvocation (VList [VInt 68; VInt 673; VInt 152; VDict [(VStr "caller_authrole", VStr "user")]; VList [VStr "1st"]; VDict [(VStr "fruit", VStr "apple")]]))) = Some "dict" /\
  same (attribute "details" (parses CInvocation (VList [VInt 68; VInt 673; VInt 152; VDict [(VStr "caller_authrole", VStr "user")]; VList [VStr "1st"]; VDict [(VStr "fruit", VStr "apple")]]))) (VDict [(VStr "caller_authrole", VStr "user")]) = true.
Proof. now vm_compute. Qed.
Example invocation_test_marshal :
  length (marshal (Invocation (mkInvocation (PyInt 612723) (PyInt 171952) None None [] no_payload))) = 4%nat /\
  kind (nth_error (marshal (Invocation (mkInvocation (PyInt 612723) (PyInt 171952) None None [] no_payload))) 0) = Some "int" /\
  same (nth_error (marshal (Invocation (mkInvocation (PyInt 612723) (PyInt 171952) None None [] no_payload))) 0) (VInt 68) = true /\
  kind (nth_error (marshal (Invocation (mkInvocation (PyInt 612723) (PyInt 171952) None None [] no_payload))) 1) = Some "int" /\
  same (nth_error (marshal (Invocation (mkInvocation (PyInt 612723) (PyInt 171952) None None [] no_payload))) 1) (VInt 612723) = true /\
  kind (nth_error (marshal (Invocation (mkInvocation (PyInt 612723) (PyInt 171952) None None [] no_payload))) 2) = Some "int" /\
  same (nth_error (marshal (Invocation (mkInvocation (PyInt 612723) (PyInt 171952) None None [] no_payload))) 2) (VInt 171952) = true /\
  same (nth_error (marshal (Invocation (mkInvocation (PyInt 612723) (PyInt 171952) None None [] no_payload))) 3) (VDict []) = true.
Proof. now vm_compute. Qed.
Example invocation_test_marshal_with_args :
  length (marshal (Invocation (mkInvocation (PyInt 61273) (PyInt 17152) (Some [VStr "2nd"]) None [] no_payload))) = 5%nat /\
  kind (nth_error (marshal (Invocation (mkInvocation (PyInt 61273) (PyInt 17152) (Some [VStr "2nd"]) None [] no_payload))) 0) = Some "int" /\
  same (nth_error (marshal (Invocation (mkInvocation (PyInt 61273) (PyInt 17152) (Some [VStr "2nd"]) None [] no_payload))) 0) (VInt 68) = true /\
  kind (nth_error (marshal (Invocation (mkInvocation (PyInt 61273) (PyInt 17152) (Some [VStr "2nd"]) None [] no_payload))) 1) = Some "int" /\
  same (nth_error (marshal (Invocation (mkInvocation (PyInt 61273) (PyInt 17152) (Some [VStr "2nd"]) None [] no_payload))) 1) (VInt 61273) = true /\
  kind (nth_error (marshal (Invocation (mkInvocation (PyInt 61273) (PyInt 17152) (Some [VStr "2nd"]) None [] no_payload))) 2) = Some "int" /\
  same (nth_error (marshal (Invocation (mkInvocation (PyInt 61273) (PyInt 17152) (Some [VStr "2nd"]) None [] no_payload))) 2) (VInt 17152) = true /\
  same (nth_error (marshal (Invocation (mkInvocation (PyInt 61273) (PyInt 17152) (Some [VStr "2nd"]) None [] no_payload))) 3) (VDict []) = true /\
  kind (nth_error (marshal (Invocation (mkInvocation (PyInt 61273) (PyInt 17152) (Some [VStr "2nd"]) None [] no_payload))) 4) = Some "list" /\
  same (nth_error (marshal (Invocation (mkInvocation (PyInt 61273) (PyInt 17152) (Some [VStr "2nd"]) None [] no_payload))) 4) (VList [VStr "2nd"]) = true.
Proof. now vm_compute. Qed.
Example invocation_test_marshal_with_kwargs :
  length (marshal (Invocation (mkInvocation (PyInt 6173) (PyInt 1152) (Some [VStr "2nd"]) (Some [(VStr "fruit", VStr "apple")]) [] no_payload))) = 6%nat /\
  kind (nth_error (marshal (Invocation (mkInvocation (PyInt 6173) (PyInt 1152) (Some [VStr "2nd"]) (Some [(VStr "fruit", VStr "apple")]) [] no_payload))) 0) = Some "int" /\
  same (nth_error (marshal (Invocation (mkInvocation (PyInt 6173) (PyInt 1152) (Some [VStr "2nd"]) (Some [(VStr "fruit", VStr "apple")]) [] no_payload))) 0) (VInt 68) = true /\
  kind (nth_error (marshal (Invocation (mkInvocation (PyInt 6173) (PyInt 1152) (Some [VStr "2nd"]) (Some [(VStr "fruit", VStr "apple")]) [] no_payload))) 1) = Some "int" /\
  same (nth_error (marshal (Invocation (mkInvocation (PyInt 6173) (PyInt 1152) (Some [VStr "2nd"]) (Some [(VStr "fruit", VStr "apple")]) [] no_payload))) 1) (VInt 6173) = true /\
  kind (nth_error (marshal (Invocation (mkInvocation (PyInt 6173) (PyInt 1152) (Some [VStr "2nd"]) (Some [(VStr "fruit", VStr "apple")]) [] no_payload))) 2) = Some "int" /\
  same (nth_error (marshal (Invocation (mkInvocation (PyInt 6173) (PyInt 1152) (Some [VStr "2nd"]) (Some [(VStr "fruit", VStr "apple")]) [] no_payload))) 2) (VInt 1152) = true /\
  same (nth_error (marshal (Invocation (mkInvocation (PyInt 6173) (PyInt 1152) (Some [VStr "2nd"]) (Some [(VStr "fruit", VStr "apple")]) [] no_payload))) 3) (VDict []) = true /\
  kind (nth_error (marshal (Invocation (mkInvocation (PyInt 6173) (PyInt 1152) (Some [VStr "2nd"]) (Some [(VStr "fruit", VStr "apple")]) [] no_payload))) 4) = Some "list" /\
  same (nth_error (marshal (Invocation (mkInvocation (PyInt 6173) (PyInt 1152) (Some [VStr "2nd"]) (Some [(VStr "fruit", VStr "apple")]) [] no_payload))) 4) (VList [VStr "2nd"]) = true /\
  kind (nth_error (marshal (Invocation (mkInvocation (PyInt 6173) (PyInt 1152) (Some [VStr "2nd"]) (Some [(VStr "fruit", VStr "apple")]) [] no_payload))) 5) = Some "dict" /\
  same (nth_error (marshal (Invocation (mkInvocation (PyInt 6173) (PyInt 1152) (Some [VStr "2nd"]) (Some [(VStr "fruit", VStr "apple")]) [] no_payload))) 5) (VDict [(VStr "fruit", VStr "apple")]) = true.
Proof. now vm_compute. Qed.
Example invocation_test_marshal_with_all_options :
  length (marshal (Invocation (mkInvocation (PyInt 673) (PyInt 152) (Some [VStr "1st"]) (Some [(VStr "fruit", VStr "apple")]) [(VStr "caller_authrole", VStr "user")] no_payload))) = 6%nat /\
  kind (nth_error (marshal (Invocation (mkInvocation (PyInt 673) (PyInt 152) (Some [VStr "1st"]) (Some [(VStr "fruit", VStr "apple")]) [(VStr "caller_authrole", VStr "user")] no_payload))) 0) = Some "int" /\
  same (nth_error (marshal (Invocation (mkInvocation (PyInt 673) (PyInt 152) (Some [VStr "1st"]) (Some [(VStr "fruit", VStr "apple")]) [(VStr "caller_authrole", VStr "user")] no_payload))) 0) (VInt 68) = true /\
  kind (nth_error (marshal (Invocation (mkInvocation (PyInt 673) (PyInt 152) (Some [VStr "1st"]) (Some [(VStr "fruit", VStr "apple")]) [(VStr "caller_authrole", VStr "user")] no_payload))) 1) = Some "int" /\
  same (nth_error (marshal (Invocation (mkInvocation (PyInt 673) (PyInt 152) (Some [VStr "1st"]) (Some [(VStr "fruit", VStr "apple")]) [(VStr "caller_authrole", VStr "user")] no_payload))) 1) (VInt 673) = true /\
  kind (nth_error (marshal (Invocation (mkInvocation (PyInt 673) (PyInt 152) (Some [VStr "1st"]) (Some [(VStr "fruit", VStr "apple")]) [(VStr "caller_authrole", VStr "user")] no_payload))) 2) = Some "int" /\
  same (nth_error (marshal (Invocation (mkInvocation (PyInt 673) (PyInt 152) (Some [VStr "1st"]) (Some [(VStr "fruit", VStr "apple")]) [(VStr "caller_authrole", VStr "user")] no_payload))) 2) (VInt 152) = true /\
  kind (nth_error (marshal (Invocation (mkInvocation (PyInt 673) (PyInt 152) (Some [VStr "1st"]) (Some [(VStr "fruit", VStr "apple")]) [(VStr "caller_authrole", VStr "user")] no_payload))) 3) = Some "dict" /\
  same (nth_error (marshal (Invocation (mkInvocation (PyInt 673) (PyInt 152) (Some [VStr "1st"]) (Some [(VStr "fruit", VStr "apple")]) [(VStr "caller_authrole", VStr "user")] no_payload))) 3) (VDict [(VStr "caller_authrole", VStr "user")]) = true /\
  kind (nth_error (marshal (Invocation (mkInvocation (PyInt 673) (PyInt 152) (Some [VStr "1st"]) (Some [(VStr "fruit", VStr "apple")]) [(VStr "caller_authrole", VStr "user")] no_payload))) 4) = Some "list" /\
  same (nth_error (marshal (Invocation (mkInvocation (PyInt 673) (PyInt 152) (Some [VStr "1st"]) (Some [(VStr "fruit", VStr "apple")]) [(VStr "caller_authrole", VStr "user")] no_payload))) 4) (VList [VStr "1st"]) = true /\
  kind (nth_error (marshal (Invocation (mkInvocation (PyInt 673) (PyInt 152) (Some [VStr "1st"]) (Some [(VStr "fruit", VStr "apple")]) [(VStr "caller_authrole", VStr "user")] no_payload))) 5) = Some "dict" /\
  same (nth_error (marshal (Invocation (mkInvocation (PyInt 673) (PyInt 152) (Some [VStr "1st"]) (Some [(VStr "fruit", VStr "apple")]) [(VStr "caller_authrole", VStr "user")] no_payload))) 5) (VDict [(VStr "fruit", VStr "apple")]) = true.
Proof. now vm_compute. Qed.

(** tests/messages/test_result.py *)
Example result_test_parse_with_invalid_type :
  parses CResult (VStr "msg") = Raise (ValueError ["invalid message type str for RESULT, type should be a list"]).
Proof. now vm_compute. Qed.
Example result_test_parse_with_invalid_list_min_length :
  parses CResult (VList [VStr "foo"]) = Raise (ValueError ["invalid message length 1, must be at least 3"]).
Proof. now vm_compute. Qed.
Example result_test_parse_with_invalid_list_max_length :
  parses CResult (VList [VStr "foo"; VInt 12; VInt 34; VInt 1; VInt 3; VInt 2]) = Raise (ValueError ["invalid message length 6, must be at most 5"]).
Proof. now vm_compute. Qed.
Example result_test_parse_with_invalid_message_type :
  parses CResult (VList [VInt 11; VInt 7814135; VDict []]) = Raise (ValueError ["invalid message id 11 for RESULT, expected 50"]).
Proof. now vm_compute. Qed.
Example result_test_parse_with_negative_request_id :
  parses CResult (VList [VInt 50; VInt (-2); VDict []]) = Raise (ValueError ["RESULT: value at index 1 must be between '1' and '9007199254740992' but was -2"]).
Proof. now vm_compute. Qed.
Example result_test_parse_with_out_of_range_request_value :
  parses CResult (VList [VInt 50; VInt 9007199254740993; VDict []]) = Raise (ValueError ["RESULT: value at index 1 must be between '1' and '9007199254740992' but was 9007199254740993"]).
Proof. now vm_compute. Qed.
Example result_test_parse_with_invalid_details_type :
  parses CResult (VList [VInt 50; VInt 367; VStr "details"]) = Raise (ValueError ["RESULT: value at index 2 must be of type 'dict' but was str"]).
Proof. now vm_compute. Qed.
Example result_test_parse_with_invalid_args_type :
  parses CResult (VList [VInt 50; VInt 361; VDict []; VStr "args"]) = Raise (ValueError ["RESULT: value at index 3 must be of type 'list' but was str"]).
Proof. now vm_compute. Qed.
Example result_test_parse_with_invalid_kwargs_type :
  parses CResult (VList [VInt 50; VInt 367; VDict []; VList []; VList [VStr "kwargs"]]) = Raise (ValueError ["RESULT: value at index 4 must be of type 'dict' but was list"]).
Proof. now vm_compute. Qed.
Example result_test_parse_correctly :
  succeeds (parses CResult (VList [VInt 50; VInt 367; VDict []])) /\
  kind (attribute "request_id" (parses CResult (VList [VInt 50; VInt 367; VDict []]))) = Some "int" /\
  same (attribute "request_id" (parses CResult (VList [VInt 50; VInt 367; VDict []]))) (VInt 367) = true /\
  same (attribute "args" (parses CResult (VList [VInt 50; VInt 367; VDict []]))) (VNone) = true /\
  same (attribute "kwargs" (parses CResult (VList [VInt 50; VInt 367; VDict []]))) (VNone) = true /\
  same (attribute "details" (parses CResult (VList [VInt 50; VInt 367; VDict []]))) (VDict []) = true.
Proof. now vm_compute. Qed.
Example result_test_parse_correctly_with_details :
  succeeds (parses CResult (VList [VInt 50; VInt 362; VDict [(VStr "caller_authid", VStr "mahad")]])) /\
  kind (attribute "request_id" (parses CResult (VList [VInt 50; VInt 362; VDict [(VStr "caller_authid", VStr "mahad")]]))) = Some "int" /\
  same (attribute "request_id" (parses CResult (VList [VInt 50; VInt 362; VDict [(VStr "caller_authid", VStr "mahad")]]))) (VInt 362) = true /\
  kind (attribute "details" (parses CResult (VList [VInt 50; VInt 362; VDict [(VStr "caller_authid", VStr "mahad")]]))) = Some "dict" /\
  same (attribute "details" (parses CResult (VList [VInt 50; VInt 362; VDict [(VStr "caller_authid", VStr "mahad")]]))) (VDict [(VStr "caller_authid", VStr "mahad")]) = true /\
  same (attribute "args" (parses CResult (VList [VInt 50; VInt 362; VDict [(VStr "caller_authid", VStr "mahad")]]))) (VNone) = true /\
  same (attribute "kwargs" (parses CResult (VList [VInt 50; VInt 362; VDict [(VStr "caller_authid", VStr "mahad")]]))) (VNone) = true.
Proof. now vm_compute. Qed.
Example result_test_parse_correctly_with_args :
  succeeds (parses CResult (VList [VInt 50; VInt 367; VDict []; VList [VStr "first"; VInt 2]])) /\
  kind (attribute "request_id" (parses CResult (VList [VInt 50; VInt 367; VDict []; VList [VStr "first"; VInt 2]]))) = Some "int" /\
  same (attribute "request_id" (parses CResult (VList [VInt 50; VInt 367; VDict []; VList [VStr "first"; VInt 2]]))) (VInt 367) = true /\
  kind (attribute "args" (parses CResult (VList [VInt 50; VInt 367; VDict []; VList [VStr "first"; VInt 2]]))) = Some "list" /\
  same (attribute "args" (parses CResult (VList [VInt 50; VInt 367; VDict []; VList [VStr "first"; VInt 2]]))) (VList [VStr "first"; VInt 2]) = true /\
  same (attribute "details" (parses CResult (VList [VInt 50; VInt 367; VDict []; VList [VStr "first"; VInt 2]]))) (VDict []) = true /\
  same (attribute "kwargs" (parses CResult (VList [VInt 50; VInt 367; VDict []; VList [VStr "first"; VInt 2]]))) (VNone) = true.
Proof. now vm_compute. Qed.
Example result_test_parse_correctly_with_kwargs :
  succeeds (parses CResult (VList [VInt 50; VInt 367; VDict []; VList []; VDict [(VStr "name", VStr "mahad")]])) /\
  kind (attribute "request_id" (parses CResult (VList [VInt 50; VInt 367; VDict []; VList []; VDict [(VStr "name", VStr "mahad")]]))) = Some "int" /\
  same (attribute "request_id" (parses CResult (VList [VInt 50; VInt 367; VDict []; VList []; VDict [(VStr "name", VStr "mahad")]]))) (VInt 367) = true /\
  same (attribute "kwargs" (parses CResult (VList [VInt 50; VInt 367; VDict []; VList []; VDict [(VStr "name", VStr "mahad")]]))) (VDict [(VStr "name", VStr "mahad")]) = true /\
  same (attribute "args" (parses CResult (VList [VInt 50; VInt 367; VDict []; VList []; VDict [(VStr "name", VStr "mahad")]]))) (VList []) = true /\
  same (attribute "details" (parses CResult (VList [VInt 50; VInt 367; VDict []; VList []; VDict [(VStr "name", VStr "mahad")]]))) (VDict []) = true.
Proof. now vm_compute. Qed.
Example result_test_parse_correctly_with_all_details :
  succeeds (parses CResult (VList [VInt 50; VInt 3671; VDict [(VStr "caller_authid", VStr "mahad")]; VList [VStr "arg1"]; VDict [(VStr "name", VStr "mahad")]])) /\
  kind (attribute "request_id" (parses CResult (VList [VInt 50; VInt 3671; VDict [(VStr "caller_authid", VStr "mahad")]; VList [VStr "arg1"]; VDict [(VStr "name", VStr "mahad")]]))) = Some "int" /\
  same (attribute "request_id" (parses CResult (VList [VInt 50; VInt 3671; VDict [(VStr "caller_authid", VStr "mahad")]; VList [VStr "arg1"]; VDict [(VStr "name", VStr "mahad")]]))) (VInt 3671) = true /\
  same (attribute "details" (parses CResult (VList [VInt 50; VInt 3671; VDict [(VStr "caller_authid", VStr "mahad")]; VList [VStr "arg1"]; VDict [(VStr "name", VStr "mahad")]]))) (VDict [(VStr "caller_authid", VStr "mahad")]) = true /\
  same (attribute "args" (parses CResult (VList [VInt 50; VInt 3671; VDict [(VStr "caller_authid", VStr "mahad")]; VList [VStr "arg1"]; VDict [(VStr "name", VStr "mahad")]]))) (VList [VStr "arg1"]) = true /\
  same (attribute "kwargs" (parses CResult (VList [VInt 50; VInt 3671; VDict [(VStr "caller_authid", VStr "mahad")]; VList [VStr "arg1"]; VDict [(VStr "name", VStr "mahad")]]))) (VDict [(VStr "name", VStr "mahad")]) = true.
Proof. now vm_compute. Qed.
Example result_test_marshal :
  length (marshal (Result (mkResult (PyInt 367) None None [] no_payload))) = 3%nat /\
  kind (nth_error (marshal (Result (mkResult (PyInt 367) None None [] no_payload))) 0) = Some "int" /\
  same (nth_error (marshal (Result (mkResult (PyInt 367) None None [] no_payload))) 0) (VInt 50) = true /\
  kind (nth_error (marshal (Result (mkResult (PyInt 367) None None [] no_payload))) 1) = Some "int" /\
  same (nth_error (marshal (Result (mkResult (PyInt 367) None None [] no_payload))) 1) (VInt 367) = true /\
  same (nth_error (marshal (Result (mkResult (PyInt 367) None None [] no_payload))) 2) (VDict []) = true.
Proof. now vm_compute. Qed.
Example result_test_marshal_with_args :
  length (marshal (Result (mkResult (PyInt 367) (Some [VStr "new"]) None [] no_payload))) = 4%nat /\
  kind (nth_error (marshal (Result (mkResult (PyInt 367) (Some [VStr "new"]) None [] no_payload))) 0) = Some "int" /\
  same (nth_error (marshal (Result (mkResult (PyInt 367) (Some [VStr "new"]) None [] no_payload))) 0) (VInt 50) = true /\
  kind (nth_error (marshal (Result (mkResult (PyInt 367) (Some [VStr "new"]) None [] no_payload))) 1) = Some "int" /\
  same (nth_error (marshal (Result (mkResult (PyInt 367) (Some [VStr "new"]) None [] no_payload))) 1) (VInt 367) = true /\
  same (nth_error (marshal (Result (mkResult (PyInt 367) (Some [VStr "new"]) None [] no_payload))) 2) (VDict []) = true /\
  kind (nth_error (marshal (Result (mkResult (PyInt 367) (Some [VStr "new"]) None [] no_payload))) 3) = Some "list" /\
  same (nth_error (marshal (Result (mkResult (PyInt 367) (Some [VStr "new"]) None [] no_payload))) 3) (VList [VStr "new"]) = true.
Proof. now vm_compute. Qed.
Example result_test_marshal_with_kwargs :
  length (marshal (Result (mkResult (PyInt 167) (Some [VStr "args"]) (Some [(VStr "new", VStr "value")]) [] no_payload))) = 5%nat /\
  kind (nth_error (marshal (Result (mkResult (PyInt 167) (Some [VStr "args"]) (Some [(VStr "new", VStr "value")]) [] no_payload))) 0) = Some "int" /\
  same (nth_error (marshal (Result (mkResult (PyInt 167) (Some [VStr "args"]) (Some [(VStr "new", VStr "value")]) [] no_payload))) 0) (VInt 50) = true /\
  kind (nth_error (marshal (Result (mkResult (PyInt 167) (Some [VStr "args"]) (Some [(VStr "new", VStr "value")]) [] no_payload))) 1) = Some "int" /\
  same (nth_error (marshal (Result (mkResult (PyInt 167) (Some [VStr "args"]) (Some [(VStr "new", VStr "value")]) [] no_payload))) 1) (VInt 167) = true /\
  same (nth_error (marshal (Result (mkResult (PyInt 167) (Some [VStr "args"]) (Some [(VStr "new", VStr "value")]) [] no_payload))) 2) (VDict []) = true /\
  kind (nth_error (marshal (Result (mkResult (PyInt 167) (Some [VStr "args"]) (Some [(VStr "new", VStr "value")]) [] no_payload))) 3) = Some "list" /\
  same (nth_error (marshal (Result (mkResult (PyInt 167) (Some [VStr "args"]) (Some [(VStr "new", VStr "value")]) [] no_payload))) 3) (VList [VStr "args"]) = true /\
  kind (nth_error (marshal (Result (mkResult (PyInt 167) (Some [VStr "args"]) (Some [(VStr "new", VStr "value")]) [] no_payload))) 4) = Some "dict" /\
  same (nth_error (marshal (Result (mkResult (PyInt 167) (Some [VStr "args"]) (Some [(VStr "new", VStr "value")]) [] no_payload))) 4) (VDict [(VStr "new", VStr "value")]) = true.
Proof. now vm_compute. Qed.
Example result_test_marshal_with_all_details :
  length (marshal (Result (mkResult (PyInt 1677) (Some [VStr "arg1"]) (Some [(VStr "key", VStr "value")]) [(VStr "receive_progress", VBool true)] no_payload))) = 5%nat /\
  kind (nth_error (marshal (Result (mkResult (PyInt 1677) (Some [VStr "arg1"]) (Some [(VStr "key", VStr "value")]) [(VStr "receive_progress", VBool true)] no_payload))) 0) = Some "int" /\
  same (nth_error (marshal (Result (mkResult (PyInt 1677) (Some [VStr "arg1"]) (Some [(VStr "key", VStr "value")]) [(VStr "receive_progress", VBool true)] no_payload))) 0) (VInt 50) = true /\
  kind (nth_error (marshal (Result (mkResult (PyInt 1677) (Some [VStr "arg1"]) (Some [(VStr "key", VStr "value")]) [(VStr "receive_progress", VBool true)] no_payload))) 1) = Some "int" /\
  same (nth_error (marshal (Result (mkResult (PyInt 1677) (Some [VStr "arg1"]) (Some [(VStr "key", VStr "value")]) [(VStr "receive_progress", VBool true)] no_payload))) 1) (VInt 1677) = true /\
  kind (nth_error (marshal (Result (mkResult (PyInt 1677) (Some [VStr "arg1"]) (Some [(VStr "key", VStr "value")]) [(VStr "receive_progress", VBool true)] no_payload))) 2) = Some "dict" /\
  same (nth_error (marshal (Result (mkResult (PyInt 1677) (Some [VStr "arg1"]) (Some [(VStr "key", VStr "value")]) [(VStr "receive_progress", VBool true)] no_payload))) 2) (VDict [(VStr "receive_progress", VBool true)]) = true /\
  kind (nth_error (marshal (Result (mkResult (PyInt 1677) (Some [VStr "arg1"]) (Some [(VStr "key", VStr "value")]) [(VStr "receive_progress", VBool true)] no_payload))) 3) = Some "list" /\
  same (nth_error (marshal (Result (mkResult (PyInt 1677) (Some [VStr "arg1"]) (Some [(VStr "key", VStr "value")]) [(VStr "receive_progress", VBool true)] no_payload))) 3) (VList [VStr "arg1"]) = true /\
  kind (nth_error (marshal (Result (mkResult (PyInt 1677) (Some [VStr "arg1"]) (Some [(VStr "key", VStr "value")]) [(VStr "receive_progress", VBool true)] no_payload))) 4) = Some "dict" /\
  same (nth_error (marshal (Result (mkResult (PyInt 1677) (Some [VStr "arg1"]) (Some [(VStr "key", VStr "value")]) [(VStr "receive_progress", VBool true)] no_payload))) 4) (VDict [(VStr "key", VStr "value")]) = true.
Proof. now vm_compute. Qed.

(** tests/messages/test_welcome.py *)
Example welcome_test_welcome :
  length (marshal (Welcome (mkWelcome (PyInt 25631) [] None None None []))) = 3%nat /\
  same (nth_error (marshal (Welcome (mkWelcome (PyInt 25631) [] None None None []))) 0) (VInt 2) = true /\
  same (nth_error (marshal (Welcome (mkWelcome (PyInt 25631) [] None None None []))) 1) (VInt 25631) = true /\
  same (nth_error (marshal (Welcome (mkWelcome (PyInt 25631) [] None None None []))) 2) (VDict [(VStr "roles", VDict []); (VStr "authextra", VDict [])]) = true /\
  length (marshal (Welcome (mkWelcome (PyInt 25631) [(VStr "caller", VStr "")] (Some "mahad") None None []))) = 3%nat /\
  same (nth_error (marshal (Welcome (mkWelcome (PyInt 25631) [(VStr "caller", VStr "")] (Some "mahad") None None []))) 0) (VInt 2) = true /\
  same (nth_error (marshal (Welcome (mkWelcome (PyInt 25631) [(VStr "caller", VStr "")] (Some "mahad") None None []))) 1) (VInt 25631) = true /\
  same (nth_error (marshal (Welcome (mkWelcome (PyInt 25631) [(VStr "caller", VStr "")] (Some "mahad") None None []))) 2) (VDict [(VStr "roles", VDict [(VStr "caller", VStr "")]); (VStr "authid", VStr "mahad"); (VStr "authextra", VDict [])]) = true /\
  length (marshal (Welcome (mkWelcome (PyInt 25631) [(VStr "caller", VStr "")] None (Some "callee") None []))) = 3%nat /\
  same (nth_error (marshal (Welcome (mkWelcome (PyInt 25631) [(VStr "caller", VStr "")] None (Some "callee") None []))) 0) (VInt 2) = true /\
  same (nth_error (marshal (Welcome (mkWelcome (PyInt 25631) [(VStr "caller", VStr "")] None (Some "callee") None []))) 1) (VInt 25631) = true /\
  same (nth_error (marshal (Welcome (mkWelcome (PyInt 25631) [(VStr "caller", VStr "")] None (Some "callee") None []))) 2) (VDict [(VStr "roles", VDict [(VStr "caller", VStr "")]); (VStr "authrole", VStr "callee"); (VStr "authextra", VDict [])]) = true /\
  length (marshal (Welcome (mkWelcome (PyInt 25631) [(VStr "publisher", VStr "")] (Some "mahad") (Some "callee") None []))) = 3%nat /\
  same (nth_error (marshal (Welcome (mkWelcome (PyInt 25631) [(VStr "publisher", VStr "")] (Some "mahad") (Some "callee") None []))) 0) (VInt 2) = true /\
  same (nth_error (marshal (Welcome (mkWelcome (PyInt 25631) [(VStr "publisher", VStr "")] (Some "mahad") (Some "callee") None []))) 1) (VInt 25631) = true /\
  same (nth_error (marshal (Welcome (mkWelcome (PyInt 25631) [(VStr "publisher", VStr "")] (Some "mahad") (Some "callee") None []))) 2) (VDict [(VStr "roles", VDict [(VStr "publisher", VStr "")]); (VStr "authrole", VStr "callee"); (VStr "authid", VStr "mahad"); (VStr "authextra", VDict [])]) = true.
Proof. now vm_compute. Qed.
Example welcome_test_marshal_with_no_roles_and_details :
  length (marshal (Welcome (mkWelcome (PyInt 25631) [] None None None []))) = 3%nat /\
  kind (nth_error (marshal (Welcome (mkWelcome (PyInt 25631) [] None None None []))) 0) = Some "int" /\
  same (nth_error (marshal (Welcome (mkWelcome (PyInt 25631) [] None None None []))) 0) (VInt 2) = true /\
  kind (nth_error (marshal (Welcome (mkWelcome (PyInt 25631) [] None None None []))) 1) = Some "int" /\
  same (nth_error (marshal (Welcome (mkWelcome (PyInt 25631) [] None None None []))) 1) (VInt 25631) = true /\
  kind (nth_error (marshal (Welcome (mkWelcome (PyInt 25631) [] None None None []))) 2) = Some "dict" /\
  same (nth_error (marshal (Welcome (mkWelcome (PyInt 25631) [] None None None []))) 2) (VDict [(VStr "roles", VDict []); (VStr "authextra", VDict [])]) = true.
Proof. now vm_compute. Qed.
Example welcome_test_marshal_with_role_and_no_details :
  length (marshal (Welcome (mkWelcome (PyInt 25631) [(VStr "callee", VDict [])] None None None []))) = 3%nat /\
  kind (nth_error (marshal (Welcome (mkWelcome (PyInt 25631) [(VStr "callee", VDict [])] None None None []))) 0) = Some "int" /\
  same (nth_error (marshal (Welcome (mkWelcome (PyInt 25631) [(VStr "callee", VDict [])] None None None []))) 0) (VInt 2) = true /\
  kind (nth_error (marshal (Welcome (mkWelcome (PyInt 25631) [(VStr "callee", VDict [])] None None None []))) 1) = Some "int" /\
  same (nth_error (marshal (Welcome (mkWelcome (PyInt 25631) [(VStr "callee", VDict [])] None None None []))) 1) (VInt 25631) = true /\
  kind (nth_error (marshal (Welcome (mkWelcome (PyInt 25631) [(VStr "callee", VDict [])] None None None []))) 2) = Some "dict" /\
  same (nth_error (marshal (Welcome (mkWelcome (PyInt 25631) [(VStr "callee", VDict [])] None None None []))) 2) (VDict [(VStr "roles", VDict [(VStr "callee", VDict [])]); (VStr "authextra", VDict [])]) = true.
Proof. now vm_compute. Qed.
Example welcome_test_marshal_with_authid :
  length (marshal (Welcome (mkWelcome (PyInt 25631) [(VStr "callee", VDict [])] (Some "mahad") None None []))) = 3%nat /\
  kind (nth_error (marshal (Welcome (mkWelcome (PyInt 25631) [(VStr "callee", VDict [])] (Some "mahad") None None []))) 0) = Some "int" /\
  same (nth_error (marshal (Welcome (mkWelcome (PyInt 25631) [(VStr "callee", VDict [])] (Some "mahad") None None []))) 0) (VInt 2) = true /\
  kind (nth_error (marshal (Welcome (mkWelcome (PyInt 25631) [(VStr "callee", VDict [])] (Some "mahad") None None []))) 1) = Some "int" /\
  same (nth_error (marshal (Welcome (mkWelcome (PyInt 25631) [(VStr "callee", VDict [])] (Some "mahad") None None []))) 1) (VInt 25631) = true /\
  kind (nth_error (marshal (Welcome (mkWelcome (PyInt 25631) [(VStr "callee", VDict [])] (Some "mahad") None None []))) 2) = Some "dict" /\
  same (nth_error (marshal (Welcome (mkWelcome (PyInt 25631) [(VStr "callee", VDict [])] (Some "mahad") None None []))) 2) (VDict [(VStr "roles", VDict [(VStr "callee", VDict [])]); (VStr "authid", VStr "mahad"); (VStr "authextra", VDict [])]) = true.
Proof. now vm_compute. Qed.
Example welcome_test_marshal_with_authrole :
  length (marshal (Welcome (mkWelcome (PyInt 25631) [(VStr "callee", VDict [])] None (Some "admin") None []))) = 3%nat /\
  kind (nth_error (marshal (Welcome (mkWelcome (PyInt 25631) [(VStr "callee", VDict [])] None (Some "admin") None []))) 0) = Some "int" /\
  same (nth_error (marshal (Welcome (mkWelcome (PyInt 25631) [(VStr "callee", VDict [])] None (Some "admin") None []))) 0) (VInt 2) = true /\
  kind (nth_error (marshal (Welcome (mkWelcome (PyInt 25631) [(VStr "callee", VDict [])] None (Some "admin") None []))) 1) = Some "int" /\
  same (nth_error (marshal (Welcome (mkWelcome (PyInt 25631) [(VStr "callee", VDict [])] None (Some "admin") None []))) 1) (VInt 25631) = true /\
  kind (nth_error (marshal (Welcome (mkWelcome (PyInt 25631) [(VStr "callee", VDict [])] None (Some "admin") None []))) 2) = Some "dict" /\
  same (nth_error (marshal (Welcome (mkWelcome (PyInt 25631) [(VStr "callee", VDict [])] None (Some "admin") None []))) 2) (VDict [(VStr "roles", VDict [(VStr "callee", VDict [])]); (VStr "authrole", VStr "admin"); (VStr "authextra", VDict [])]) = true.
Proof. now vm_compute. Qed.
Example welcome_test_marshal_with_authmethod :
  length (marshal (Welcome (mkWelcome (PyInt 25631) [(VStr "callee", VDict [])] None None (Some "anonymous") []))) = 3%nat /\
  kind (nth_error (marshal (Welcome (mkWelcome (PyInt 25631) [(VStr "callee", VDict [])] None None (Some "anonymous") []))) 0) = Some "int" /\
  same (nth_error (marshal (Welcome (mkWelcome (PyInt 25631) [(VStr "callee", VDict [])] None None (Some "anonymous") []))) 0) (VInt 2) = true /\
  kind (nth_error (marshal (Welcome (mkWelcome (PyInt 25631) [(VStr "callee", VDict [])] None None (Some "anonymous") []))) 1) = Some "int" /\
  same (nth_error (marshal (Welcome (mkWelcome (PyInt 25631) [(VStr "callee", VDict [])] None None (Some "anonymous") []))) 1) (VInt 25631) = true /\
  kind (nth_error (marshal (Welcome (mkWelcome (PyInt 25631) [(VStr "callee", VDict [])] None None (Some "anonymous") []))) 2) = Some "dict" /\
  same (nth_error (marshal (Welcome (mkWelcome (PyInt 25631) [(VStr "callee", VDict [])] None None (Some "anonymous") []))) 2) (VDict [(VStr "roles", VDict [(VStr "callee", VDict [])]); (VStr "authmethod", VStr "anonymous"); (VStr "authextra", VDict [])]) = true.
Proof. now vm_compute. Qed.
Example welcome_test_marshal_with_authextra :
  length (marshal (Welcome (mkWelcome (PyInt 25631) [(VStr "callee", VDict [])] None None None [(VStr "extra", VBool true)]))) = 3%nat /\
  kind (nth_error (marshal (Welcome (mkWelcome (PyInt 25631) [(VStr "callee", VDict [])] None None None [(VStr "extra", VBool true)]))) 0) = Some "int" /\
  same (nth_error (marshal (Welcome (mkWelcome (PyInt 25631) [(VStr "callee", VDict [])] None None None [(VStr "extra", VBool true)]))) 0) (VInt 2) = true /\
  kind (nth_error (marshal (Welcome (mkWelcome (PyInt 25631) [(VStr "callee", VDict [])] None None None [(VStr "extra", VBool true)]))) 1) = Some "int" /\
  same (nth_error (marshal (Welcome (mkWelcome (PyInt 25631) [(VStr "callee", VDict [])] None None None [(VStr "extra", VBool true)]))) 1) (VInt 25631) = true /\
  kind (nth_error (marshal (Welcome (mkWelcome (PyInt 25631) [(VStr "callee", VDict [])] None None None [(VStr "extra", VBool true)]))) 2) = Some "dict" /\
  same (nth_error (marshal (Welcome (mkWelcome (PyInt 25631) [(VStr "callee", VDict [])] None None None [(VStr "extra", VBool true)]))) 2) (VDict [(VStr "roles", VDict [(VStr "callee", VDict [])]); (VStr "authextra", VDict [(VStr "extra", VBool true)])]) = true.
Proof. now vm_compute. Qed.
Example welcome_test_marshal_with_role_authid_and_authrole :
  length (marshal (Welcome (mkWelcome (PyInt 25631) [(VStr "callee", VDict [])] (Some "mahad") (Some "admin") None []))) = 3%nat /\
  kind (nth_error (marshal (Welcome (mkWelcome (PyInt 25631) [(VStr "callee", VDict [])] (Some "mahad") (Some "admin") None []))) 0) = Some "int" /\
  same (nth_error (marshal (Welcome (mkWelcome (PyInt 25631) [(VStr "callee", VDict [])] (Some "mahad") (Some "admin") None []))) 0) (VInt 2) = true /\
  kind (nth_error (marshal (Welcome (mkWelcome (PyInt 25631) [(VStr "callee", VDict [])] (Some "mahad") (Some "admin") None []))) 1) = Some "int" /\
  same (nth_error (marshal (Welcome (mkWelcome (PyInt 25631) [(VStr "callee", VDict [])] (Some "mahad") (Some "admin") None []))) 1) (VInt 25631) = true /\
  kind (nth_error (marshal (Welcome (mkWelcome (PyInt 25631) [(VStr "callee", VDict [])] (Some "mahad") (Some "admin") None []))) 2) = Some "dict" /\
  same (nth_error (marshal (Welcome (mkWelcome (PyInt 25631) [(VStr "callee", VDict [])] (Some "mahad") (Some "admin") None []))) 2) (VDict [(VStr "roles", VDict [(VStr "callee", VDict [])]); (VStr "authid", VStr "mahad"); (VStr "authrole", VStr "admin"); (VStr "authextra", VDict [])]) = true.
Proof. now vm_compute. Qed.
Example welcome_test_marshal_with_role_authid_authrole_authmethod :
  length (marshal (Welcome (mkWelcome (PyInt 25631) [(VStr "callee", VDict [])] (Some "mahad") (Some "admin") (Some "ticket") []))) = 3%nat /\
  kind (nth_error (marshal (Welcome (mkWelcome (PyInt 25631) [(VStr "callee", VDict [])] (Some "mahad") (Some "admin") (Some "ticket") []))) 0) = Some "int" /\
  same (nth_error (marshal (Welcome (mkWelcome (PyInt 25631) [(VStr "callee", VDict [])] (Some "mahad") (Some "admin") (Some "ticket") []))) 0) (VInt 2) = true /\
  kind (nth_error (marshal (Welcome (mkWelcome (PyInt 25631) [(VStr "callee", VDict [])] (Some "mahad") (Some "admin") (Some "ticket") []))) 1) = Some "int" /\
  same (nth_error (marshal (Welcome (mkWelcome (PyInt 25631) [(VStr "callee", VDict [])] (Some "mahad") (Some "admin") (Some "ticket") []))) 1) (VInt 25631) = true /\
  kind (nth_error (marshal (Welcome (mkWelcome (PyInt 25631) [(VStr "callee", VDict [])] (Some "mahad") (Some "admin") (Some "ticket") []))) 2) = Some "dict" /\
  same (nth_error (marshal (Welcome (mkWelcome (PyInt 25631) [(VStr "callee", VDict [])] (Some "mahad") (Some "admin") (Some "ticket") []))) 2) (VDict [(VStr "roles", VDict [(VStr "callee", VDict [])]); (VStr "authid", VStr "mahad"); (VStr "authrole", VStr "admin"); (VStr "authmethod", VStr "ticket"); (VStr "authextra", VDict [])]) = true.
Proof. now vm_compute. Qed.
Example welcome_test_marshal_with_role_authid_authrole_authmethod_authextra :
  length (marshal (Welcome (mkWelcome (PyInt 25631) [(VStr "callee", VDict [])] (Some "mahad") (Some "admin") (Some "ticket") [(VStr "authprovider", VStr "static")]))) = 3%nat /\
  kind (nth_error (marshal (Welcome (mkWelcome (PyInt 25631) [(VStr "callee", VDict [])] (Some "mahad") (Some "admin") (Some "ticket") [(VStr "authprovider", VStr "static")]))) 0) = Some "int" /\
  same (nth_error (marshal (Welcome (mkWelcome (PyInt 25631) [(VStr "callee", VDict [])] (Some "mahad") (Some "admin") (Some "ticket") [(VStr "authprovider", VStr "static")]))) 0) (VInt 2) = true /\
  kind (nth_error (marshal (Welcome (mkWelcome (PyInt 25631) [(VStr "callee", VDict [])] (Some "mahad") (Some "admin") (Some "ticket") [(VStr "authprovider", VStr "static")]))) 1) = Some "int" /\
  same (nth_error (marshal (Welcome (mkWelcome (PyInt 25631) [(VStr "callee", VDict [])] (Some "mahad") (Some "admin") (Some "ticket") [(VStr "authprovider", VStr "static")]))) 1) (VInt 25631) = true /\
  kind (nth_error (marshal (Welcome (mkWelcome (PyInt 25631) [(VStr "callee", VDict [])] (Some "mahad") (Some "admin") (Some "ticket") [(VStr "authprovider", VStr "static")]))) 2) = Some "dict" /\
  same (nth_error (marshal (Welcome (mkWelcome (PyInt 25631) [(VStr "callee", VDict [])] (Some "mahad") (Some "admin") (Some "ticket") [(VStr "authprovider", VStr "static")]))) 2) (VDict [(VStr "roles", VDict [(VStr "callee", VDict [])]); (VStr "authid", VStr "mahad"); (VStr "authrole", VStr "admin"); (VStr "authmethod", VStr "ticket"); (VStr "authextra", VDict [(VStr "authprovider", VStr "static")])]) = true.
Proof. now vm_compute. Qed.
Example welcome_test_parse_with_invalid_type :
  parses CWelcome (VStr "msg") = Raise (ValueError ["invalid message type str for WELCOME, type should be a list"]).
Proof. now vm_compute. Qed.
Example welcome_test_parse_with_invalid_list_min_length :
  parses CWelcome (VList [VInt 2]) = Raise (ValueError ["invalid message length 1, must be at least 3"]).
Proof. now vm_compute. Qed.
Example welcome_test_parse_with_invalid_list_max_length :
  parses CWelcome (VList [VInt 1; VInt 5; VInt 23; VInt 1]) = Raise (ValueError ["invalid message length 4, must be at most 3"]).
Proof. now vm_compute. Qed.
Example welcome_test_parse_with_invalid_message_type :
  parses CWelcome (VList [VInt 1; VInt 25631; VDict []]) = Raise (ValueError ["invalid message id 1 for WELCOME, expected 2"]).
Proof. now vm_compute. Qed.
Example welcome_test_parse_with_invalid_session_type :
  parses CWelcome (VList [VInt 2; VList [VStr "session"]; VDict [(VStr "roles", VDict [(VStr "callee", VDict [])])]]) = Raise (ValueError ["WELCOME: value at index 1 must be of type 'int' but was list"]).
Proof. now vm_compute. Qed.
Example welcome_test_parse_with_negative_session_value :
  parses CWelcome (VList [VInt 2; VInt (-1); VDict [(VStr "roles", VDict [(VStr "callee", VDict [])])]]) = Raise (ValueError ["WELCOME: value at index 1 must be between '1' and '9007199254740992' but was -1"]).
Proof. now vm_compute. Qed.
Example welcome_test_parse_with_out_of_range_session_value :
  parses CWelcome (VList [VInt 2; VInt 9007199254740993; VDict [(VStr "roles", VDict [(VStr "callee", VDict [])])]]) = Raise (ValueError ["WELCOME: value at index 1 must be between '1' and '9007199254740992' but was 9007199254740993"]).
Proof. now vm_compute. Qed.
Example welcome_test_parse_with_invalid_details_type :
  parses CWelcome (VList [VInt 2; VInt 25631; VStr "details"]) = Raise (ValueError ["WELCOME: value at index 2 must be of type 'dict' but was str"]).
Proof. now vm_compute. Qed.
Example welcome_test_parse_with_invalid_details_dict_key :
  parses CWelcome (VList [VInt 2; VInt 25631; VDict [(VInt 1, VStr "v")]]) = Raise (ValueError ["WELCOME: value at index 2 for key 'roles' must be of type 'dict' but was NoneType"]).
Proof. now vm_compute. Qed.
Example welcome_test_parse_with_invalid_role_type :
  parses CWelcome (VList [VInt 2; VInt 25631; VDict [(VStr "roles", VStr "new_role")]]) = Raise (ValueError ["WELCOME: value at index 2 for key 'roles' must be of type 'dict' but was str"]).
Proof. now vm_compute. Qed.
Example welcome_test_parse_with_empty_role :
  parses CWelcome (VList [VInt 2; VInt 25631; VDict [(VStr "roles", VDict [])]]) = Raise (ValueError ["WELCOME: value at index 2 for roles key must be in ['callee', 'caller', 'publisher', 'subscriber', 'dealer', 'broker'] but was empty"]).
Proof. now vm_compute. Qed.
Example welcome_test_parse_with_invalid_role_key :
  parses CWelcome (VList [VInt 2; VInt 25631; VDict [(VStr "roles", VDict [(VStr "new_role", VDict [])])]]) = Raise (ValueError ["WELCOME: value at index 2 for roles key must be in ['callee', 'caller', 'publisher', 'subscriber', 'dealer', 'broker'] but was new_role"]).
Proof. now vm_compute. Qed.
Example welcome_test_parse_with_invalid_authid :
  parses CWelcome (VList [VInt 2; VInt 25631; VDict [(VStr "roles", VDict [(VStr "callee", VDict [])]); (VStr "authid", VList [])]]) = Raise (ValueError ["WELCOME: value at index 2 for key 'authid' must be of type 'string' but was list"]).
Proof. now vm_compute. Qed.
Example welcome_test_parse_with_invalid_authrole :
  parses CWelcome (VList [VInt 2; VInt 25631; VDict [(VStr "roles", VDict [(VStr "callee", VDict [])]); (VStr "authrole", VList [])]]) = Raise (ValueError ["WELCOME: value at index 2 for key 'authrole' must be of type 'string' but was list"]).
Proof. now vm_compute. Qed.
Example welcome_test_parse_with_invalid_authmethod_type :
  parses CWelcome (VList [VInt 2; VInt 25631; VDict [(VStr "roles", VDict [(VStr "callee", VDict [])]); (VStr "authmethod", VList [])]]) = Raise (ValueError ["WELCOME: value at index 2 for key 'authmethod' must be of type 'string' but was list"]).
Proof. now vm_compute. Qed.
Example welcome_test_parse_with_invalid_authextra_type :
  parses CWelcome (VList [VInt 2; VInt 25631; VDict [(VStr "roles", VDict [(VStr "callee", VDict [])]); (VStr "authextra", VStr "authextra")]]) = Raise (ValueError ["WELCOME: value at index 2 for key 'authextra' must be of type 'dict' but was str"]).
Proof. now vm_compute. Qed.
Example welcome_test_parse_with_valid_roles :
  succeeds (parses CWelcome (VList [VInt 2; VInt 25631; VDict [(VStr "roles", VDict [(VStr "callee", VDict [])])]])) /\
  kind (attribute "session_id" (parses CWelcome (VList [VInt 2; VInt 25631; VDict [(VStr "roles", VDict [(VStr "callee", VDict [])])]]))) = Some "int" /\
  same (attribute "session_id" (parses CWelcome (VList [VInt 2; VInt 25631; VDict [(VStr "roles", VDict [(VStr "callee", VDict [])])]]))) (VInt 25631) = true /\
  kind (attribute "roles" (parses CWelcome (VList [VInt 2; VInt 25631; VDict [(VStr "roles", VDict [(VStr "callee", VDict [])])]]))) = Some "dict" /\
  same (attribute "roles" (parses CWelcome (VList [VInt 2; VInt 25631; VDict [(VStr "roles", VDict [(VStr "callee", VDict [])])]]))) (VDict [(VStr "callee", VDict [])]) = true /\
  same (attribute "authid" (parses CWelcome (VList [VInt 2; VInt 25631; VDict [(VStr "roles", VDict [(VStr "callee", VDict [])])]]))) (VNone) = true /\
  same (attribute "authrole" (parses CWelcome (VList [VInt 2; VInt 25631; VDict [(VStr "roles", VDict [(VStr "callee", VDict [])])]]))) (VNone) = true /\
  same (attribute "authmethod" (parses CWelcome (VList [VInt 2; VInt 25631; VDict [(VStr "roles", VDict [(VStr "callee", VDict [])])]]))) (VNone) = true /\
  same (attribute "authextra" (parses CWelcome (VList [VInt 2; VInt 25631; VDict [(VStr "roles", VDict [(VStr "callee", VDict [])])]]))) (VDict []) = true /\
  succeeds (parses CWelcome (VList [VInt 2; VInt 25631; VDict [(VStr "roles", VDict [(VStr "caller", VDict [])])]])) /\
  kind (attribute "session_id" (parses CWelcome (VList [VInt 2; VInt 25631; VDict [(VStr "roles", VDict [(VStr "caller", VDict [])])]]))) = Some "int" /\
  same (attribute "session_id" (parses CWelcome (VList [VInt 2; VInt 25631; VDict [(VStr "roles", VDict [(VStr "caller", VDict [])])]]))) (VInt 25631) = true /\
  kind (attribute "roles" (parses CWelcome (VList [VInt 2; VInt 25631; VDict [(VStr "roles", VDict [(VStr "caller", VDict [])])]]))) = Some "dict" /\
  same (attribute "roles" (parses CWelcome (VList [VInt 2; VInt 25631; VDict [(VStr "roles", VDict [(VStr "caller", VDict [])])]]))) (VDict [(VStr "caller", VDict [])]) = true /\
  same (attribute "authid" (parses CWelcome (VList [VInt 2; VInt 25631; VDict [(VStr "roles", VDict [(VStr "caller", VDict [])])]]))) (VNone) = true /\
  same (attribute "authrole" (parses CWelcome (VList [VInt 2; VInt 25631; VDict [(VStr "roles", VDict [(VStr "caller", VDict [])])]]))) (VNone) = true /\
  same (attribute "authmethod" (parses CWelcome (VList [VInt 2; VInt 25631; VDict [(VStr "roles", VDict [(VStr "caller", VDict [])])]]))) (VNone) = true /\
  same (attribute "authextra" (parses CWelcome (VList [VInt 2; VInt 25631; VDict [(VStr "roles", VDict [(VStr "caller", VDict [])])]]))) (VDict []) = true /\
  succeeds (parses CWelcome (VList [VInt 2; VInt 25631; VDict [(VStr "roles", VDict [(VStr "publisher", VDict [])])]])) /\
  kind (attribute "session_id" (parses CWelcome (VList [VInt 2; VInt 25631; VDict [(VStr "roles", VDict [(VStr "publisher", VDict [])])]]))) = Some "int" /\
  same (attribute "session_id" (parses CWelcome (VList [VInt 2; VInt 25631; VDict [(VStr "roles", VDict [(VStr "publisher", VDict [])])]]))) (VInt 25631) = true /\
  kind (attribute "roles" (parses CWelcome (VList [VInt 2; VInt 25631; VDict [(VStr "roles", VDict [(VStr "publisher", VDict [])])]]))) = Some "dict" /\
  same (attribute "roles" (parses CWelcome (VList [VInt 2; VInt 25631; VDict [(VStr "roles", VDict [(VStr "publisher", VDict [])])]]))) (VDict [(VStr "publisher", VDict [])]) = true /\
  same (attribute "authid" (parses CWelcome (VList [VInt 2; VInt 25631; VDict [(VStr "roles", VDict [(VStr "publisher", VDict [])])]]))) (VNone) = true /\
  same (attribute "authrole" (parses CWelcome (VList [VInt 2; VInt 25631; VDict [(VStr "roles", VDict [(VStr "publisher", VDict [])])]]))) (VNone) = true /\
  same (attribute "authmethod" (parses CWelcome (VList [VInt 2; VInt 25631; VDict [(VStr "roles", VDict [(VStr "publisher", VDict [])])]]))) (VNone) = true /\
  same (attribute "authextra" (parses CWelcome (VList [VInt 2; VInt 25631; VDict [(VStr "roles", VDict [(VStr "publisher", VDict [])])]]))) (VDict []) = true /\
  succeeds (parses CWelcome (VList [VInt 2; VInt 25631; VDict [(VStr "roles", VDict [(VStr "subscriber", VDict [])])]])) /\
  kind (attribute "session_id" (parses CWelcome (VList [VInt 2; VInt 25631; VDict [(VStr "roles", VDict [(VStr "subscriber", VDict [])])]]))) = Some "int" /\
  same (attribute "session_id" (parses CWelcome (VList [VInt 2; VInt 25631; VDict [(VStr "roles", VDict [(VStr "subscriber", VDict [])])]]))) (VInt 25631) = true /\
  kind (attribute "roles" (parses CWelcome (VList [VInt 2; VInt 25631; VDict [(VStr "roles", VDict [(VStr "subscriber", VDict [])])]]))) = Some "dict" /\
  same (attribute "roles" (parses CWelcome (VList [VInt 2; VInt 25631; VDict [(VStr "roles", VDict [(VStr "subscriber", VDict [])])]]))) (VDict [(VStr "subscriber", VDict [])]) = true /\
  same (attribute "authid" (parses CWelcome (VList [VInt 2; VInt 25631; VDict [(VStr "roles", VDict [(VStr "subscriber", VDict [])])]]))) (VNone) = true /\
  same (attribute "authrole" (parses CWelcome (VList [VInt 2; VInt 25631; VDict [(VStr "roles", VDict [(VStr "subscriber", VDict [])])]]))) (VNone) = true /\
  same (attribute "authmethod" (parses CWelcome (VList [VInt 2; VInt 25631; VDict [(VStr "roles", VDict [(VStr "subscriber", VDict [])])]]))) (VNone) = true /\
  same (attribute "authextra" (parses CWelcome (VList [VInt 2; VInt 25631; VDict [(VStr "roles", VDict [(VStr "subscriber", VDict [])])]]))) (VDict []) = true /\
  succeeds (parses CWelcome (VList [VInt 2; VInt 25631; VDict [(VStr "roles", VDict [(VStr "dealer", VDict [])])]])) /\
  kind (attribute "session_id" (parses CWelcome (VList [VInt 2; VInt 25631; VDict [(VStr "roles", VDict [(VStr "dealer", VDict [])])]]))) = Some "int" /\
  same (attribute "session_id" (parses CWelcome (VList [VInt 2; VInt 25631; VDict [(VStr "roles", VDict [(VStr "dealer", VDict [])])]]))) (VInt 25631) = true /\
  kind (attribute "roles" (parses CWelcome (VList [VInt 2; VInt 25631; VDict [(VStr "roles", VDict [(VStr "dealer", VDict [])])]]))) = Some "dict" /\
  same (attribute "roles" (parses CWelcome (VList [VInt 2; VInt 25631; VDict [(VStr "roles", VDict [(VStr "dealer", VDict [])])]]))) (VDict [(VStr "dealer", VDict [])]) = true /\
  same (attribute "authid" (parses CWelcome (VList [VInt 2; VInt 25631; VDict [(VStr "roles", VDict [(VStr "dealer", VDict [])])]]))) (VNone) = true /\
  same (attribute "authrole" (parses CWelcome (VList [VInt 2; VInt 25631; VDict [(VStr "roles", VDict [(VStr "dealer", VDict [])])]]))) (VNone) = true /\
  same (attribute "authmethod" (parses CWelcome (VList [VInt 2; VInt 25631; VDict [(VStr "roles", VDict [(VStr "dealer", VDict [])])]]))) (VNone) = true /\
  same (attribute "authextra" (parses CWelcome (VList [VInt 2; VInt 25631; VDict [(VStr "roles", VDict [(VStr "dealer", VDict [])])]]))) (VDict []) = true /\
  succeeds (parses CWelcome (VList [VInt 2; VInt 25631; VDict [(VStr "roles", VDict [(VStr "broker", VDict [])])]])) /\
  kind (attribute "session_id" (parses CWelcome (VList [VInt 2; VInt 25631; VDict [(VStr "roles", VDict [(VStr "broker", VDict [])])]]))) = Some "int" /\
  same (attribute "session_id" (parses CWelcome (VList [VInt 2; VInt 25631; VDict [(VStr "roles", VDict [(VStr "broker", VDict [])])]]))) (VInt 25631) = true /\
  kind (attribute "roles" (parses CWelcome (VList [VInt 2; VInt 25631; VDict [(VStr "roles", VDict [(VStr "broker", VDict [])])]]))) = Some "dict" /\
  same (attribute "roles" (parses CWelcome (VList [VInt 2; VInt 25631; VDict [(VStr "roles", VDict [(VStr "broker", VDict [])])]]))) (VDict [(VStr "broker", VDict [])]) = true /\
  same (attribute "authid" (parses CWelcome (VList [VInt 2; VInt 25631; VDict [(VStr "roles", VDict [(VStr "broker", VDict [])])]]))) (VNone) = true /\
  same (attribute "authrole" (parses CWelcome (VList [VInt 2; VInt 25631; VDict [(VStr "roles", VDict [(VStr "broker", VDict [])])]]))) (VNone) = true /\
  same (attribute "authmethod" (parses CWelcome (VList [VInt 2; VInt 25631; VDict [(VStr "roles", VDict [(VStr "broker", VDict [])])]]))) (VNone) = true /\
  same (attribute "authextra" (parses CWelcome (VList [VInt 2; VInt 25631; VDict [(VStr "roles", VDict [(VStr "broker", VDict [])])]]))) (VDict []) = true.
Proof. now vm_compute. Qed.
Example welcome_test_parse_with_multiple_roles :
  succeeds (parses CWelcome (VList [VInt 2; VInt 25631; VDict [(VStr "roles", VDict [(VStr "callee", VDict []); (VStr "caller", VDict [])])]])) /\
  kind (attribute "session_id" (parses CWelcome (VList [VInt 2; VInt 25631; VDict [(VStr "roles", VDict [(VStr "callee", VDict []); (VStr "caller", VDict [])])]]))) = Some "int" /\
  same (attribute "session_id" (parses CWelcome (VList [VInt 2; VInt 25631; VDict [(VStr "roles", VDict [(VStr "callee", VDict []); (VStr "caller", VDict [])])]]))) (VInt 25631) = true /\
  kind (attribute "roles" (parses CWelcome (VList [VInt 2; VInt 25631; VDict [(VStr "roles", VDict [(VStr "callee", VDict []); (VStr "caller", VDict [])])]]))) = Some "dict" /\
  same (attribute "roles" (parses CWelcome (VList [VInt 2; VInt 25631; VDict [(VStr "roles", VDict [(VStr "callee", VDict []); (VStr "caller", VDict [])])]]))) (VDict [(VStr "callee", VDict []); (VStr "caller", VDict [])]) = true /\
  same (attribute "authid" (parses CWelcome (VList [VInt 2; VInt 25631; VDict [(VStr "roles", VDict [(VStr "callee", VDict []); (VStr "caller", VDict [])])]]))) (VNone) = true /\
  same (attribute "authrole" (parses CWelcome (VList [VInt 2; VInt 25631; VDict [(VStr "roles", VDict [(VStr "callee", VDict []); (VStr "caller", VDict [])])]]))) (VNone) = true /\
  same (attribute "authmethod" (parses CWelcome (VList [VInt 2; VInt 25631; VDict [(VStr "roles", VDict [(VStr "callee", VDict []); (VStr "caller", VDict [])])]]))) (VNone) = true /\
  same (attribute "authextra" (parses CWelcome (VList [VInt 2; VInt 25631; VDict [(VStr "roles", VDict [(VStr "callee", VDict []); (VStr "caller", VDict [])])]]))) (VDict []) = true.
Proof. now vm_compute. Qed.
Example welcome_test_parse_with_authid :
  succeeds (parses CWelcome (VList [VInt 2; VInt 25631; VDict [(VStr "roles", VDict [(VStr "callee", VDict [])]); (VStr "authid", VStr "mahad")]])) /\
  kind (attribute "session_id" (parses CWelcome (VList [VInt 2; VInt 25631; VDict [(VStr "roles", VDict [(VStr "callee", VDict [])]); (VStr "authid", VStr "mahad")]]))) = Some "int" /\
  same (attribute "session_id" (parses CWelcome (VList [VInt 2; VInt 25631; VDict [(VStr "roles", VDict [(VStr "callee", VDict [])]); (VStr "authid", VStr "mahad")]]))) (VInt 25631) = true /\
  kind (attribute "roles" (parses CWelcome (VList [VInt 2; VInt 25631; VDict [(VStr "roles", VDict [(VStr "callee", VDict [])]); (VStr "authid", VStr "mahad")]]))) = Some "dict" /\
  same (attribute "roles" (parses CWelcome (VList [VInt 2; VInt 25631; VDict [(VStr "roles", VDict [(VStr "callee", VDict [])]); (VStr "authid", VStr "mahad")]]))) (VDict [(VStr "callee", VDict [])]) = true /\
  kind (attribute "authid" (parses CWelcome (VList [VInt 2; VInt 25631; VDict [(VStr "roles", VDict [(VStr "callee", VDict [])]); (VStr "authid", VStr "mahad")]]))) = Some "str" /\
  same (attribute "authid" (parses CWelcome (VList [VInt 2; VInt 25631; VDict [(VStr "roles", VDict [(VStr "callee", VDict [])]); (VStr "authid", VStr "mahad")]]))) (VStr "mahad") = true /\
  same (attribute "authrole" (parses CWelcome (VList [VInt 2; VInt 25631; VDict [(VStr "roles", VDict [(VStr "callee", VDict [])]); (VStr "authid", VStr "mahad")]]))) (VNone) = true /\
  same (attribute "authmethod" (parses CWelcome (VList [VInt 2; VInt 25631; VDict [(VStr "roles", VDict [(VStr "callee", VDict [])]); (VStr "authid", VStr "mahad")]]))) (VNone) = true /\
  same (attribute "authextra" (parses CWelcome (VList [VInt 2; VInt 25631; VDict [(VStr "roles", VDict [(VStr "callee", VDict [])]); (VStr "authid", VStr "mahad")]]))) (VDict []) = true.
Proof. now vm_compute. Qed.
Example welcome_test_parse_with_authrole :
  succeeds (parses CWelcome (VList [VInt 2; VInt 25631; VDict [(VStr "roles", VDict [(VStr "callee", VDict [])]); (VStr "authrole", VStr "admin")]])) /\
  kind (attribute "session_id" (parses CWelcome (VList [VInt 2; VInt 25631; VDict [(VStr "roles", VDict [(VStr "callee", VDict [])]); (VStr "authrole", VStr "admin")]]))) = Some "int" /\
  same (attribute "session_id" (parses CWelcome (VList [VInt 2; VInt 25631; VDict [(VStr "roles", VDict [(VStr "callee", VDict [])]); (VStr "authrole", VStr "admin")]]))) (VInt 25631) = true /\
  kind (attribute "roles" (parses CWelcome (VList [VInt 2; VInt 25631; VDict [(VStr "roles", VDict [(VStr "callee", VDict [])]); (VStr "authrole", VStr "admin")]]))) = Some "dict" /\
  same (attribute "roles" (parses CWelcome (VList [VInt 2; VInt 25631; VDict [(VStr "roles", VDict [(VStr "callee", VDict [])]); (VStr "authrole", VStr "admin")]]))) (VDict [(VStr "callee", VDict [])]) = true /\
  kind (attribute "authrole" (parses CWelcome (VList [VInt 2; VInt 25631; VDict [(VStr "roles", VDict [(VStr "callee", VDict [])]); (VStr "authrole", VStr "admin")]]))) = Some "str" /\
  same (attribute "authrole" (parses CWelcome (VList [VInt 2; VInt 25631; VDict [(VStr "roles", VDict [(VStr "callee", VDict [])]); (VStr "authrole", VStr "admin")]]))) (VStr "admin") = true /\
  same (attribute "authid" (parses CWelcome (VList [VInt 2; VInt 25631; VDict [(VStr "roles", VDict [(VStr "callee", VDict [])]); (VStr "authrole", VStr "admin")]]))) (VNone) = true /\
  same (attribute "authmethod" (parses CWelcome (VList [VInt 2; VInt 25631; VDict [(VStr "roles", VDict [(VStr "callee", VDict [])]); (VStr "authrole", VStr "admin")]]))) (VNone) = true /\
  same (attribute "authextra" (parses CWelcome (VList [VInt 2; VInt 25631; VDict [(VStr "roles", VDict [(VStr "callee", VDict [])]); (VStr "authrole", VStr "admin")]]))) (VDict []) = true.
Proof. now vm_compute. Qed.
Example welcome_test_parse_with_authmethod :
  succeeds (parses CWelcome (VList [VInt 2; VInt 25631; VDict [(VStr "roles", VDict [(VStr "callee", VDict [])]); (VStr "authmethod", VStr "cryptosign")]])) /\
  kind (attribute "session_id" (parses CWelcome (VList [VInt 2; VInt 25631; VDict [(VStr "roles", VDict [(VStr "callee", VDict [])]); (VStr "authmethod", VStr "cryptosign")]]))) = Some "int" /\
  same (attribute "session_id" (parses CWelcome (VList [VInt 2; VInt 25631; VDict [(VStr "roles", VDict [(VStr "callee", VDict [])]); (VStr "authmethod", VStr "cryptosign")]]))) (VInt 25631) = true /\
  kind (attribute "roles" (parses CWelcome (VList [VInt 2; VInt 25631; VDict [(VStr "roles", VDict [(VStr "callee", VDict [])]); (VStr "authmethod", VStr "cryptosign")]]))) = Some "dict" /\
  same (attribute "roles" (parses CWelcome (VList [VInt 2; VInt 25631; VDict [(VStr "roles", VDict [(VStr "callee", VDict [])]); (VStr "authmethod", VStr "cryptosign")]]))) (VDict [(VStr "callee", VDict [])]) = true /\
  kind (attribute "authmethod" (parses CWelcome (VList [VInt 2; VInt 25631; VDict [(VStr "roles", VDict [(VStr "callee", VDict [])]); (VStr "authmethod", VStr "cryptosign")]]))) = Some "str" /\
  same (attribute "authmethod" (parses CWelcome (VList [VInt 2; VInt 25631; VDict [(VStr "roles", VDict [(VStr "callee", VDict [])]); (VStr "authmethod", VStr "cryptosign")]]))) (VStr "cryptosign") = true /\
  same (attribute "authid" (parses CWelcome (VList [VInt 2; VInt 25631; VDict [(VStr "roles", VDict [(VStr "callee", VDict [])]); (VStr "authmethod", VStr "cryptosign")]]))) (VNone) = true /\
  same (attribute "authrole" (parses CWelcome (VList [VInt 2; VInt 25631; VDict [(VStr "roles", VDict [(VStr "callee", VDict [])]); (VStr "authmethod", VStr "cryptosign")]]))) (VNone) = true /\
  same (attribute "authextra" (parses CWelcome (VList [VInt 2; VInt 25631; VDict [(VStr "roles", VDict [(VStr "callee", VDict [])]); (VStr "authmethod", VStr "cryptosign")]]))) (VDict []) = true.
Proof. now vm_compute. Qed.
Example welcome_test_parse_with_authid_and_authrole :
  succeeds (parses CWelcome (VList [VInt 2; VInt 25631; VDict [(VStr "roles", VDict [(VStr "callee", VDict [])]); (VStr "authid", VStr "mahad"); (VStr "authrole", VStr "admin")]])) /\
  kind (attribute "session_id" (parses CWelcome (VList [VInt 2; VInt 25631; VDict [(VStr "roles", VDict [(VStr "callee", VDict [])]); (VStr "authid", VStr "mahad"); (VStr "authrole", VStr "admin")]]))) = Some "int" /\
  same (attribute "session_id" (parses CWelcome (VList [VInt 2; VInt 25631; VDict [(VStr "roles", VDict [(VStr "callee", VDict [])]); (VStr "authid", VStr "mahad"); (VStr "authrole", VStr "admin")]]))) (VInt 25631) = true /\
  kind (attribute "roles" (parses CWelcome (VList [VInt 2; VInt 25631; VDict [(VStr "roles", VDict [(VStr "callee", VDict [])]); (VStr "authid", VStr "mahad"); (VStr "authrole", VStr "admin")]]))) = Some "dict" /\
  same (attribute "roles" (parses CWelcome (VList [VInt 2; VInt 25631; VDict [(VStr "roles", VDict [(VStr "callee", VDict [])]); (VStr "authid", VStr "mahad"); (VStr "authrole", VStr "admin")]]))) (VDict [(VStr "callee", VDict [])]) = true /\
  kind (attribute "authid" (parses CWelcome (VList [VInt 2; VInt 25631; VDict [(VStr "roles", VDict [(VStr "callee", VDict [])]); (VStr "authid", VStr "mahad"); (VStr "authrole", VStr "admin")]]))) = Some "str" /\
  same (attribute "authid" (parses CWelcome (VList [VInt 2; VInt 25631; VDict [(VStr "roles", VDict [(VStr "callee", VDict [])]); (VStr "authid", VStr "mahad"); (VStr "authrole", VStr "admin")]]))) (VStr "mahad") = true /\
  kind (attribute "authrole" (parses CWelcome (VList [VInt 2; VInt 25631; VDict [(VStr "roles", VDict [(VStr "callee", VDict [])]); (VStr "authid", VStr "mahad"); (VStr "authrole", VStr "admin")]]))) = Some "str" /\
  same (attribute "authrole" (parses CWelcome (VList [VInt 2; VInt 25631; VDict [(VStr "roles", VDict [(VStr "callee", VDict [])]); (VStr "authid", VStr "mahad"); (VStr "authrole", VStr "admin")]]))) (VStr "admin") = true /\
  same (attribute "authmethod" (parses CWelcome (VList [VInt 2; VInt 25631; VDict [(VStr "roles", VDict [(VStr "callee", VDict [])]); (VStr "authid", VStr "mahad"); (VStr "authrole", VStr "admin")]]))) (VNone) = true /\
  same (attribute "authextra" (parses CWelcome (VList [VInt 2; VInt 25631; VDict [(VStr "roles", VDict [(VStr "callee", VDict [])]); (VStr "authid", VStr "mahad"); (VStr "authrole", VStr "admin")]]))) (VDict []) = true.
Proof. now vm_compute. Qed.
Example welcome_test_parse_with_authid_authrole_authmethod :
  succeeds (parses CWelcome (VList [VInt 2; VInt 25631; VDict [(VStr "roles", VDict [(VStr "callee", VDict [])]); (VStr "authid", VStr "mahad"); (VStr "authrole", VStr "admin"); (VStr "authmethod", VStr "cryptosign")]])) /\
  kind (attribute "session_id" (parses CWelcome (VList [VInt 2; VInt 25631; VDict [(VStr "roles", VDict [(VStr "callee", VDict [])]); (VStr "authid", VStr "mahad"); (VStr "authrole", VStr "admin"); (VStr "authmethod", VStr "cryptosign")]]))) = Some "int" /\
  same (attribute "session_id" (parses CWelcome (VList [VInt 2; VInt 25631; VDict [(VStr "roles", VDict [(VStr "callee", VDict [])]); (VStr "authid", VStr "mahad"); (VStr "authrole", VStr "admin"); (VStr "authmethod", VStr "cryptosign")]]))) (VInt 25631) = true /\
  kind (attribute "roles" (parses CWelcome (VList [VInt 2; VInt 25631; VDict [(VStr "roles", VDict [(VStr "callee", VDict [])]); (VStr "authid", VStr "mahad"); (VStr "authrole", VStr "admin"); (VStr "authmethod", VStr "cryptosign")]]))) = Some "dict" /\
  same (attribute "roles" (parses CWelcome (VList [VInt 2; VInt 25631; VDict [(VStr "roles", VDict [(VStr "callee", VDict [])]); (VStr "authid", VStr "mahad"); (VStr "authrole", VStr "admin"); (VStr "authmethod", VStr "cryptosign")]]))) (VDict [(VStr "callee", VDict [])]) = true /\
  kind (attribute "authid" (parses CWelcome (VList [VInt 2; VInt 25631; VDict [(VStr "roles", VDict [(VStr "callee", VDict [])]); (VStr "authid", VStr "mahad"); (VStr "authrole", VStr "admin"); (VStr "authmethod", VStr "cryptosign")]]))) = Some "str" /\
  same (attribute "authid" (parses CWelcome (VList [VInt 2; VInt 25631; VDict [(VStr "roles", VDict [(VStr "callee", VDict [])]); (VStr "authid", VStr "mahad"); (VStr "authrole", VStr "admin"); (VStr "authmethod", VStr "cryptosign")]]))) (VStr "mahad") = true /\
  kind (attribute "authrole" (parses CWelcome (VList [VInt 2; VInt 25631; VDict [(VStr "roles", VDict [(VStr "callee", VDict [])]); (VStr "authid", VStr "mahad"); (VStr "authrole", VStr "admin"); (VStr "authmethod", VStr "cryptosign")]]))) = Some "str" /\
  same (attribute "authrole" (parses CWelcome (VList [VInt 2; VInt 25631; VDict [(VStr "roles", VDict [(VStr "callee", VDict [])]); (VStr "authid", VStr "mahad"); (VStr "authrole", VStr "admin"); (VStr "authmethod", VStr "cryptosign")]]))) (VStr "admin") = true /\
  kind (attribute "authmethod" (parses CWelcome (VList [VInt 2; VInt 25631; VDict [(VStr "roles", VDict [(VStr "callee", VDict [])]); (VStr "authid", VStr "mahad"); (VStr "authrole", VStr "admin"); (VStr "authmethod", VStr "cryptosign")]]))) = Some "str" /\
  same (attribute "authmethod" (parses CWelcome (VList [VInt 2; VInt 25631; VDict [(VStr "roles", VDict [(VStr "callee", VDict [])]); (VStr "authid", VStr "mahad"); (VStr "authrole", VStr "admin"); (VStr "authmethod", VStr "cryptosign")]]))) (VStr "cryptosign") = true /\
  same (attribute "authextra" (parses CWelcome (VList [VInt 2; VInt 25631; VDict [(VStr "roles", VDict [(VStr "callee", VDict [])]); (VStr "authid", VStr "mahad"); (VStr "authrole", VStr "admin"); (VStr "authmethod", VStr "cryptosign")]]))) (VDict []) = true.
Proof. now vm_compute. Qed.
Example welcome_test_parse_with_authid_authrole_authmethod_authextra :
  succeeds (parses CWelcome (VList [VInt 2; VInt 25631; VDict [(VStr "roles", VDict [(VStr "callee", VDict [])]); (VStr "authid", VStr "mahad"); (VStr "authrole", VStr "admin"); (VStr "authmethod", VStr "cryptosign"); (VStr "authextra", VDict [(VStr "extra", VBool true)])]])) /\
  kind (attribute "session_id" (parses CWelcome (VList [VInt 2; VInt 25631; VDict [(VStr "roles", VDict [(VStr "callee", VDict [])]); (VStr "authid", VStr "mahad"); (VStr "authrole", VStr "admin"); (VStr "authmethod", VStr "cryptosign"); (VStr "authextra", VDict [(VStr "extra", VBool true)])]]))) = Some "int" /\
  same (attribute "session_id" (parses CWelcome (VList [VInt 2; VInt 25631; VDict [(VStr "roles", VDict [(VStr "callee", VDict [])]); (VStr "authid", VStr "mahad"); (VStr "authrole", VStr "admin"); (VStr "authmethod", VStr "cryptosign"); (VStr "authextra", VDict [(VStr "extra", VBool true)])]]))) (VInt 25631) = true /\
  kind (attribute "roles" (parses CWelcome (VList [VInt 2; VInt 25631; VDict [(VStr "roles", VDict [(VStr "callee", VDict [])]); (VStr "authid", VStr "mahad"); (VStr "authrole", VStr "admin"); (VStr "authmethod", VStr "cryptosign"); (VStr "authextra", VDict [(VStr "extra", VBool true)])]]))) = Some "dict" /\
  same (attribute "roles" (parses CWelcome (VList [VInt 2; VInt 25631; VDict [(VStr "roles", VDict [(VStr "callee", VDict [])]); (VStr "authid", VStr "mahad"); (VStr "authrole", VStr "admin"); (VStr "authmethod", VStr "cryptosign"); (VStr "authextra", VDict [(VStr "extra", VBool true)])]]))) (VDict [(VStr "callee", VDict [])]) = true /\
  kind (attribute "authid" (parses CWelcome (VList [VInt 2; VInt 25631; VDict [(VStr "roles", VDict [(VStr "callee", VDict [])]); (VStr "authid", VStr "mahad"); (VStr "authrole", VStr "admin"); (VStr "authmethod", VStr "cryptosign"); (VStr "authextra", VDict [(VStr "extra", VBool true)])]]))) = Some "str" /\
  same (attribute "authid" (parses CWelcome (VList [VInt 2; VInt 25631; VDict [(VStr "roles", VDict [(VStr "callee", VDict [])]); (VStr "authid", VStr "mahad"); (VStr "authrole", VStr "admin"); (VStr "authmethod", VStr "cryptosign"); (VStr "authextra", VDict [(VStr "extra", VBool true)])]]))) (VStr "mahad") = true /\
  kind (attribute "authrole" (parses CWelcome (VList [VInt 2; VInt 25631; VDict [(VStr "roles", VDict [(VStr "callee", VDict [])]); (VStr "authid", VStr "mahad"); (VStr "authrole", VStr "admin"); (VStr "authmethod", VStr "cryptosign"); (VStr "authextra", VDict [(VStr "extra", VBool true)])]]))) = Some "str" /\
  same (attribute "authrole" (parses CWelcome (VList [VInt 2; VInt 25631; VDict [(VStr "roles", VDict [(VStr "callee", VDict [])]); (VStr "authid", VStr "mahad"); (VStr "authrole", VStr "admin"); (VStr "authmethod", VStr "cryptosign"); (VStr "authextra", VDict [(VStr "extra", VBool true)])]]))) (VStr "admin") = true /\
  kind (attribute "authmethod" (parses CWelcome (VList [VInt 2; VInt 25631; VDict [(VStr "roles", VDict [(VStr "callee", VDict [])]); (VStr "authid", VStr "mahad"); (VStr "authrole", VStr "admin"); (VStr "authmethod", VStr "cryptosign"); (VStr "authextra", VDict [(VStr "extra", VBool true)])]]))) = Some "str" /\
  same (attribute "authmethod" (parses CWelcome (VList [VInt 2; VInt 25631; VDict [(VStr "roles", VDict [(VStr "callee", VDict [])]); (VStr "authid", VStr "mahad"); (VStr "authrole", VStr "admin"); (VStr "authmethod", VStr "cryptosign"); (VStr "authextra", VDict [(VStr "extra", VBool true)])]]))) (VStr "cryptosign") = true /\
  kind (attribute "authextra" (parses CWelcome (VList [VInt 2; VInt 25631; VDict [(VStr "roles", VDict [(VStr "callee", VDict [])]); (VStr "authid", VStr "mahad"); (VStr "authrole", VStr "admin"); (VStr "authmethod", VStr "cryptosign"); (VStr "authextra", VDict [(VStr "extra", VBool true)])]]))) = Some "dict" /\
  size (attribute "authextra" (parses CWelcome (VList [VInt 2; VInt 25631; VDict [(VStr "roles", VDict [(VStr "callee", VDict [])]); (VStr "authid", VStr "mahad"); (VStr "authrole", VStr "admin"); (VStr "authmethod", VStr "cryptosign"); (VStr "authextra", VDict [(VStr "extra", VBool true)])]]))) = Some 1%nat /\
  same (attribute "authextra" (parses CWelcome (VList [VInt 2; VInt 25631; VDict [(VStr "roles", VDict [(VStr "callee", VDict [])]); (VStr "authid", VStr "mahad"); (VStr "authrole", VStr "admin"); (VStr "authmethod", VStr "cryptosign"); (VStr "authextra", VDict [(VStr "extra", VBool true)])]]))) (VDict [(VStr "extra", VBool true)]) = true.
Proof. now vm_compute. Qed.

(** tests/messages/test_yield.py *)
Example yield_test_parse_with_invalid_type :
  parses CYield (VInt 1) = Raise (ValueError ["invalid message type int for YIELD, type should be a list"]).
Proof. now vm_compute. Qed.
Example yield_test_parse_with_invalid_list_min_length :
  parses CYield (VList [VStr "bar"]) = Raise (ValueError ["invalid message length 1, must be at least 3"]).
Proof. now vm_compute. Qed.
Example yield_test_parse_with_invalid_list_max_length :
  parses CYield (VList [VStr "bar"; VInt 12; VInt 34; VInt 211; VInt 76; VInt 90]) = Raise (ValueError ["invalid message length 6, must be at most 5"]).
Proof. now vm_compute. Qed.
Example yield_test_parse_with_invalid_message_type :
  parses CYield (VList [VInt 11; VInt 7814135; VDict []]) = Raise (ValueError ["invalid message id 11 for YIELD, expected 70"]).
Proof. now vm_compute. Qed.
Example yield_test_parse_with_negative_request_id :
  parses CYield (VList [VInt 70; VInt (-2); VDict []]) = Raise (ValueError ["YIELD: value at index 1 must be between '1' and '9007199254740992' but was -2"]).
Proof. now vm_compute. Qed.
Example yield_test_parse_with_out_of_range_request_value :
  parses CYield (VList [VInt 70; VInt 9007199254740993; VDict []]) = Raise (ValueError ["YIELD: value at index 1 must be between '1' and '9007199254740992' but was 9007199254740993"]).
Proof. now vm_compute. Qed.
Example yield_test_parse_with_invalid_options_type :
  parses CYield (VList [VInt 70; VInt 367; VStr "options"]) = Raise (ValueError ["YIELD: value at index 2 must be of type 'dict' but was str"]).
Proof. now vm_compute. Qed.
Example yield_test_parse_with_invalid_args_type :
  parses CYield (VList [VInt 70; VInt 361; VDict []; VStr "args"]) = Raise (ValueError ["YIELD: value at index 3 must be of type 'list' but was str"]).
Proof. now vm_compute. Qed.
Example yield_test_parse_with_invalid_kwargs_type :
  parses CYield (VList [VInt 70; VInt 367; VDict []; VList []; VList [VStr "kwargs"]]) = Raise (ValueError ["YIELD: value at index 4 must be of type 'dict' but was list"]).
Proof. now vm_compute. Qed.
Example yield_test_parse_correctly :
  succeeds (parses CYield (VList [VInt 70; VInt 367; VDict []])) /\
  kind (attribute "request_id" (parses CYield (VList [VInt 70; VInt 367; VDict []]))) = Some "int" /\
  same (attribute "request_id" (parses CYield (VList [VInt 70; VInt 367; VDict []]))) (VInt 367) = true /\
  same (attribute "args" (parses CYield (VList [VInt 70; VInt 367; VDict []]))) (VNone) = true /\
  same (attribute "kwargs" (parses CYield (VList [VInt 70; VInt 367; VDict []]))) (VNone) = true /\
  same (attribute "options" (parses CYield (VList [VInt 70; VInt 367; VDict []]))) (VDict []) = true.
Proof. now vm_compute. Qed.
Example yield_test_parse_correctly_with_options :
  succeeds (parses CYield (VList [VInt 70; VInt 362; VDict [(VStr "caller_authid", VStr "mahad")]])) /\
  kind (attribute "request_id" (parses CYield (VList [VInt 70; VInt 362; VDict [(VStr "caller_authid", VStr "mahad")]]))) = Some "int" /\
  same (attribute "request_id" (parses CYield (VList [VInt 70; VInt 362; VDict [(VStr "caller_authid", VStr "mahad")]]))) (VInt 362) = true /\
  kind (attribute "options" (parses CYield (VList [VInt 70; VInt 362; VDict [(VStr "caller_authid", VStr "mahad")]]))) = Some "dict" /\
  same (attribute "options" (parses CYield (VList [VInt 70; VInt 362; VDict [(VStr "caller_authid", VStr "mahad")]]))) (VDict [(VStr "caller_authid", VStr "mahad")]) = true /\
  same (attribute "args" (parses CYield (VList [VInt 70; VInt 362; VDict [(VStr "caller_authid", VStr "mahad")]]))) (VNone) = true /\
  same (attribute "kwargs" (parses CYield (VList [VInt 70; VInt 362; VDict [(VStr "caller_authid", VStr "mahad")]]))) (VNone) = true.
Proof. now vm_compute. Qed.
Example yield_test_parse_correctly_with_args :
  succeeds (parses CYield (VList [VInt 70; VInt 367; VDict []; VList [VStr "first"; VInt 2]])) /\
  kind (attribute "request_id" (parses CYield (VList [VInt 70; VInt 367; VDict []; VList [VStr "first"; VInt 2]]))) = Some "int" /\
  same (attribute "request_id" (parses CYield (VList [VInt 70; VInt 367; VDict []; VList [VStr "first"; VInt 2]]))) (VInt 367) = true /\
  kind (attribute "args" (parses CYield (VList [VInt 70; VInt 367; VDict []; VList [VStr "first"; VInt 2]]))) = Some "list" /\
  same (attribute "args" (parses CYield (VList [VInt 70; VInt 367; VDict []; VList [VStr "first"; VInt 2]]))) (VList [VStr "first"; VInt 2]) = true /\
  same (attribute "options" (parses CYield (VList [VInt 70; VInt 367; VDict []; VList [VStr "first"; VInt 2]]))) (VDict []) = true /\
  same (attribute "kwargs" (parses CYield (VList [VInt 70; VInt 367; VDict []; VList [VStr "first"; VInt 2]]))) (VNone) = true.
Proof. now vm_compute. Qed.
Example yield_test_parse_correctly_with_kwargs :
  succeeds (parses CYield (VList [VInt 70; VInt 367; VDict []; VList []; VDict [(VStr "name", VStr "mahad")]])) /\
  kind (attribute "request_id" (parses CYield (VList [VInt 70; VInt 367; VDict []; VList []; VDict [(VStr "name", VStr "mahad")]]))) = Some "int" /\
  same (attribute "request_id" (parses CYield (VList [VInt 70; VInt 367; VDict []; VList []; VDict [(VStr "name", VStr "mahad")]]))) (VInt 367) = true /\
  same (attribute "kwargs" (parses CYield (VList [VInt 70; VInt 367; VDict []; VList []; VDict [(VStr "name", VStr "mahad")]]))) (VDict [(VStr "name", VStr "mahad")]) = true /\
  same (attribute "args" (parses CYield (VList [VInt 70; VInt 367; VDict []; VList []; VDict [(VStr "name", VStr "mahad")]]))) (VList []) = true /\
  same (attribute "options" (parses CYield (VList [VInt 70; VInt 367; VDict []; VList []; VDict [(VStr "name", VStr "mahad")]]))) (VDict []) = true.
Proof. now vm_compute. Qed.
Example yield_test_parse_correctly_with_all_options :
  succeeds (parses CYield (VList [VInt 70; VInt 3671; VDict [(VStr "caller_authid", VStr "mahad")]; VList [VStr "arg1"]; VDict [(VStr "name", VStr "mahad")]])) /\
  kind (attribute "request_id" (parses CYield (VList [VInt 70; VInt 3671; VDict [(VStr "caller_authid", VStr "mahad")]; VList [VStr "arg1"]; VDict [(VStr "name", VStr "mahad")]]))) = Some "int" /\
  same (attribute "request_id" (parses CYield (VList [VInt 70; VInt 3671; VDict [(VStr "caller_authid", VStr "mahad")]; VList [VStr "arg1"]; VDict [(VStr "name", VStr "mahad")]]))) (VInt 3671) = true /\
  same (attribute "options" (parses CYield (VList [VInt 70; VInt 3671; VDict [(VStr "caller_authid", VStr "mahad")]; VList [VStr "arg1"]; VDict [(VStr "name", VStr "mahad")]]))) (VDict [(VStr "caller_authid", VStr "mahad")]) = true /\
  same (attribute "args" (parses CYield (VList [VInt 70; VInt 3671; VDict [(VStr "caller_authid", VStr "mahad")]; VList [VStr "arg1"]; VDict [(VStr "name", VStr "mahad")]]))) (VList [VStr "arg1"]) = true /\
  same (attribute "kwargs" (parses CYield (VList [VInt 70; VInt 3671; VDict [(VStr "caller_authid", VStr "mahad")]; VList [VStr "arg1"]; VDict [(VStr "name", VStr "mahad")]]))) (VDict [(VStr "name", VStr "mahad")]) = true.
Proof. now vm_compute. Qed.
Example yield_test_marshal :
  length (marshal (Yield (mkYield (PyInt 367) None None [] no_payload))) = 3%nat /\
  kind (nth_error (marshal (Yield (mkYield (PyInt 367) None None [] no_payload))) 0) = Some "int" /\
  same (nth_error (marshal (Yield (mkYield (PyInt 367) None None [] no_payload))) 0) (VInt 70) = true /\
  kind (nth_error (marshal (Yield (mkYield (PyInt 367) None None [] no_payload))) 1) = Some "int" /\
  same (nth_error (marshal (Yield (mkYield (PyInt 367) None None [] no_payload))) 1) (VInt 367) = true /\
  same (nth_error (marshal (Yield (mkYield (PyInt 367) None None [] no_payload))) 2) (VDict []) = true.
Proof. now vm_compute. Qed.
Example yield_test_marshal_with_args :
  length (marshal (Yield (mkYield (PyInt 367) (Some [VStr "new"]) None [] no_payload))) = 4%nat /\
  kind (nth_error (marshal (Yield (mkYield (PyInt 367) (Some [VStr "new"]) None [] no_payload))) 0) = Some "int" /\
  same (nth_error (marshal (Yield (mkYield (PyInt 367) (Some [VStr "new"]) None [] no_payload))) 0) (VInt 70) = true /\
  kind (nth_error (marshal (Yield (mkYield (PyInt 367) (Some [VStr "new"]) None [] no_payload))) 1) = Some "int" /\
  same (nth_error (marshal (Yield (mkYield (PyInt 367) (Some [VStr "new"]) None [] no_payload))) 1) (VInt 367) = true /\
  same (nth_error (marshal (Yield (mkYield (PyInt 367) (Some [VStr "new"]) None [] no_payload))) 2) (VDict []) = true /\
  kind (nth_error (marshal (Yield (mkYield (PyInt 367) (Some [VStr "new"]) None [] no_payload))) 3) = Some "list" /\
  same (nth_error (marshal (Yield (mkYield (PyInt 367) (Some [VStr "new"]) None [] no_payload))) 3) (VList [VStr "new"]) = true.
Proof. now vm_compute. Qed.
Example yield_test_marshal_with_kwargs :
  length (marshal (Yield (mkYield (PyInt 167) (Some [VStr "args"]) (Some [(VStr "new", VStr "value")]) [] no_payload))) = 5%nat /\
  kind (nth_error (marshal (Yield (mkYield (PyInt 167) (Some [VStr "args"]) (Some [(VStr "new", VStr "value")]) [] no_payload))) 0) = Some "int" /\
  same (nth_error (marshal (Yield (mkYield (PyInt 167) (Some [VStr "args"]) (Some [(VStr "new", VStr "value")]) [] no_payload))) 0) (VInt 70) = true /\
  kind (nth_error (marshal (Yield (mkYield (PyInt 167) (Some [VStr "args"]) (Some [(VStr "new", VStr "value")]) [] no_payload))) 1) = Some "int" /\
  same (nth_error (marshal (Yield (mkYield (PyInt 167) (Some [VStr "args"]) (Some [(VStr "new", VStr "value")]) [] no_payload))) 1) (VInt 167) = true /\
  same (nth_error (marshal (Yield (mkYield (PyInt 167) (Some [VStr "args"]) (Some [(VStr "new", VStr "value")]) [] no_payload))) 2) (VDict []) = true /\
  kind (nth_error (marshal (Yield (mkYield (PyInt 167) (Some [VStr "args"]) (Some [(VStr "new", VStr "value")]) [] no_payload))) 3) = Some "list" /\
  same (nth_error (marshal (Yield (mkYield (PyInt 167) (Some [VStr "args"]) (Some [(VStr "new", VStr "value")]) [] no_payload))) 3) (VList [VStr "args"]) = true /\
  kind (nth_error (marshal (Yield (mkYield (PyInt 167) (Some [VStr "args"]) (Some [(VStr "new", VStr "value")]) [] no_payload))) 4) = Some "dict" /\
  same (nth_error (marshal (Yield (mkYield (PyInt 167) (Some [VStr "args"]) (Some [(VStr "new", VStr "value")]) [] no_payload))) 4) (VDict [(VStr "new", VStr "value")]) = true.
Proof. now vm_compute. Qed.
Example yield_test_marshal_with_all_options :
  length (marshal (Yield (mkYield (PyInt 1677) (Some [VStr "arg1"]) (Some [(VStr "key", VStr "value")]) [(VStr "receive_progress", VBool true)] no_payload))) = 5%nat /\
  kind (nth_error (marshal (Yield (mkYield (PyInt 1677) (Some [VStr "arg1"]) (Some [(VStr "key", VStr "value")]) [(VStr "receive_progress", VBool true)] no_payload))) 0) = Some "int" /\
  same (nth_error (marshal (Yield (mkYield (PyInt 1677) (Some [VStr "arg1"]) (Some [(VStr "key", VStr "value")]) [(VStr "receive_progress", VBool true)] no_payload))) 0) (VInt 70) = true /\
  kind (nth_error (marshal (Yield (mkYield (PyInt 1677) (Some [VStr "arg1"]) (Some [(VStr "key", VStr "value")]) [(VStr "receive_progress", VBool true)] no_payload))) 1) = Some "int" /\
  same (nth_error (marshal (Yield (mkYield (PyInt 1677) (Some [VStr "arg1"]) (Some [(VStr "key", VStr "value")]) [(VStr "receive_progress", VBool true)] no_payload))) 1) (VInt 1677) = true /\
  kind (nth_error (marshal (Yield (mkYield (PyInt 1677) (Some [VStr "arg1"]) (Some [(VStr "key", VStr "value")]) [(VStr "receive_progress", VBool true)] no_payload))) 2) = Some "dict" /\
  same (nth_error (marshal (Yield (mkYield (PyInt 1677) (Some [VStr "arg1"]) (Some [(VStr "key", VStr "value")]) [(VStr "receive_progress", VBool true)] no_payload))) 2) (VDict [(VStr "receive_progress", VBool true)]) = true /\
  kind (nth_error (marshal (Yield (mkYield (PyInt 1677) (Some [VStr "arg1"]) (Some [(VStr "key", VStr "value")]) [(VStr "receive_progress", VBool true)] no_payload))) 3) = Some "list" /\
  same (nth_error (marshal (Yield (mkYield (PyInt 1677) (Some [VStr "arg1"]) (Some [(VStr "key", VStr "value")]) [(VStr "receive_progress", VBool true)] no_payload))) 3) (VList [VStr "arg1"]) = true /\
  kind (nth_error (marshal (Yield (mkYield (PyInt 1677) (Some [VStr "arg1"]) (Some [(VStr "key", VStr "value")]) [(VStr "receive_progress", VBool true)] no_payload))) 4) = Some "dict" /\
  same (nth_error (marshal (Yield (mkYield (PyInt 1677) (Some [VStr "arg1"]) (Some [(VStr "key", VStr "value")]) [(VStr "receive_progress", VBool true)] no_payload))) 4) (VDict [(VStr "key", VStr "value")]) = true.
Proof. now vm_compute. Qed.

(** tests/serializers/test_serializer.py *)
Example serializer_test_to_message_with_invalid_case :
  to_message (VList [VInt 999]) = Raise (ValueError ["unknown message type"]).
Proof. now vm_compute. Qed.
Example serializer_test_to_message_with_hello :
  same (attribute "realm" (to_message (VList [VInt 1; VStr "realm1"; VDict [(VStr "roles", VDict [(VStr "callee", VDict [])])]]))) (VStr "realm1") = true /\
  same (attribute "roles" (to_message (VList [VInt 1; VStr "realm1"; VDict [(VStr "roles", VDict [(VStr "callee", VDict [])])]]))) (VDict [(VStr "callee", VDict [])]) = true.
Proof. now vm_compute. Qed.
Example serializer_test_to_message_with_welcome :
  same (attribute "session_id" (to_message (VList [VInt 2; VInt 231; VDict [(VStr "roles", VDict [(VStr "callee", VDict [])])]]))) (VInt 231) = true /\
  same (attribute "roles" (to_message (VList [VInt 2; VInt 231; VDict [(VStr "roles", VDict [(VStr "callee", VDict [])])]]))) (VDict [(VStr "callee", VDict [])]) = true.
Proof. now vm_compute. Qed.
Example serializer_test_to_message_with_abort :
  same (attribute "details" (to_message (VList [VInt 3; VDict [(VStr "message", VStr "The realm does not exist.")]; VStr "wamp.error.no_such_realm"]))) (VDict [(VStr "message", VStr "The realm does not exist.")]) = true /\
  same (attribute "reason" (to_message (VList [VInt 3; VDict [(VStr "message", VStr "The realm does not exist.")]; VStr "wamp.error.no_such_realm"]))) (VStr "wamp.error.no_such_realm") = true.
Proof. now vm_compute. Qed.
Example serializer_test_to_message_with_challenge :
  same (attribute "authmethod" (to_message (VList [VInt 4; VStr "cryptosign"; VDict [(VStr "channel_binding", VStr "tls-unique")]]))) (VStr "cryptosign") = true /\
  same (attribute "extra" (to_message (VList [VInt 4; VStr "cryptosign"; VDict [(VStr "channel_binding", VStr "tls-unique")]]))) (VDict [(VStr "channel_binding", VStr "tls-unique")]) = true.
Proof. now vm_compute. Qed.
Example serializer_test_to_message_with_authenticate :
  same (attribute "signature" (to_message (VList [VInt 5; VStr "signature"; VDict [(VStr "channel_binding", VStr "null")]]))) (VStr "signature") = true /\
  same (attribute "extra" (to_message (VList [VInt 5; VStr "signature"; VDict [(VStr "channel_binding", VStr "null")]]))) (VDict [(VStr "channel_binding", VStr "null")]) = true.
Proof. now vm_compute. Qed.
Example serializer_test_to_message_with_goodbye :
  same (attribute "details" (to_message (VList [VInt 6; VDict [(VStr "message", VStr "The host is shutting down now.")]; VStr "wamp.close.system_shutdown"]))) (VDict [(VStr "message", VStr "The host is shutting down now.")]) = true /\
  same (attribute "reason" (to_message (VList [VInt 6; VDict [(VStr "message", VStr "The host is shutting down now.")]; VStr "wamp.close.system_shutdown"]))) (VStr "wamp.close.system_shutdown") = true.
Proof. now vm_compute. Qed.
