(** * RepoTestsState: the stateful unit tests of /repo/tests (broker_test.py, dealer_test.py, test_session.py,
    messages/test_util.py, serializers/test_*.py), replayed on the model.  Tests, not proofs.

    A test is a list of calls on one object; the Example gives what every call returns. *)
From Coq Require Import String Ascii List ZArith Bool.
From Verif Require Import PyBase Messages Parse Serializer IdGen Encoding Auth Joiner Acceptor Session Broker Dealer Helpers.
From Verif Require Import CodecBase MsgPack Cbor Json Codecs ToyCrypto RepoTests.
Import ListNotations.
Local Open Scope string_scope.
Local Open Scope Z_scope.
Local Open Scope list_scope.

Definition fails {A} (s : string) : res A := Raise (ValueError [s]).
Definition client (sid : Z) : details := mkDetails (PyInt sid) "realm1" (Some "authid") (Some "authrole").

(** ** tests/broker_test.py *)
Inductive bcall := BAdd (d : details) | BRemove (sid : Z) | BMessage (sid : Z) (m : message)
                 | BPublish (sid : Z) (m : publish) | BHas (topic : string).
Inductive answer := AUnit (r : res unit) | ARouted (r : res routed) | APublication (r : res publication) | ABool (b : bool).
Definition bcall_step (b : broker) (c : bcall) : broker * answer :=
  match c with
  | BAdd d => let (b', r) := b_add_session b d in (b', AUnit r)
  | BRemove sid => let (b', r) := b_remove_session b sid in (b', AUnit r)
  | BMessage sid m => let (b', r) := b_receive_message b sid m in (b', ARouted r)
  | BPublish sid m => let (b', r) := b_receive_publish b sid m in (b', APublication r)
  | BHas t => (b, ABool (has_subscription b t))
  end.
Fixpoint play {S C A} (step : S -> C -> S * A) (s : S) (cs : list C) : list A :=
  match cs with [] => [] | c :: cs' => let (s', a) := step s c in a :: play step s' cs' end.

Definition topic := "io.xconn.test".
Definition subscribe1 := Subscribe (mkSubscribe (PyInt 1) topic []).
Definition unsubscribe11 := Unsubscribe (mkUnsubscribe (PyInt 1) (PyInt 1)).
Definition numbers := Some [VInt 1; VInt 2; VInt 3].

Example broker_add_and_remove_session :
  play bcall_step broker_init [BAdd (client 1); BAdd (client 1); BRemove 1; BRemove 3] =
  [AUnit (Ok tt); AUnit (fails "cannot add session twice"); AUnit (Ok tt); AUnit (fails "cannot remove non-existing session")].
Proof. vm_compute. reflexivity. Qed.
Example broker_subscribing_to_topic :
  play bcall_step broker_init [BAdd (client 1); BMessage 1 subscribe1; BHas topic; BMessage 3 subscribe1] =
  [AUnit (Ok tt); ARouted (Ok (mkRouted (Subscribed (mkSubscribed (PyInt 1) (PyInt 1))) 1)); ABool true;
   ARouted (fails "cannot subscribe, session 3 doesn't exist")].
Proof. vm_compute. reflexivity. Qed.
Example broker_unsubscribing_from_topic :
  let invalid := Unsubscribe (mkUnsubscribe (PyInt 1) (PyInt 2)) in
  play bcall_step broker_init [BAdd (client 1); BMessage 1 subscribe1; BMessage 1 unsubscribe11; BHas topic;
    BMessage 2 unsubscribe11; BMessage 1 invalid; BMessage 1 invalid] =
  [AUnit (Ok tt); ARouted (Ok (mkRouted (Subscribed (mkSubscribed (PyInt 1) (PyInt 1))) 1));
   ARouted (Ok (mkRouted (Unsubscribed (mkUnsubscribed (PyInt 1))) 1)); ABool false;
   ARouted (fails "cannot unsubscribe, session 2 doesn't exist");
   ARouted (fails "cannot unsubscribe, subscription 2 doesn't exist");
   ARouted (fails "cannot unsubscribe, subscription 2 doesn't exist")].
Proof. vm_compute. reflexivity. Qed.
Example broker_receive_invalid_message :
  play bcall_step broker_init [BMessage 1 (Call (mkCall (PyInt 1) topic None None [] no_payload))] =
  [ARouted (fails "message type not supported")].
Proof. vm_compute. reflexivity. Qed.
Example broker_publishing_to_topic :
  let publish := mkPublish (PyInt 1) topic numbers None [] in
  play bcall_step broker_init [BAdd (client 1); BMessage 1 subscribe1; BPublish 1 publish;
    BPublish 1 (mkPublish (PyInt 2) "topic1" numbers None []);
    BPublish 1 (mkPublish (PyInt 2) topic numbers None [(VStr "acknowledge", VBool true)]); BPublish 5 publish] =
  [AUnit (Ok tt); ARouted (Ok (mkRouted (Subscribed (mkSubscribed (PyInt 1) (PyInt 1))) 1));
   APublication (Ok (mkPublication (Some (mkEvent (PyInt 1) (PyInt 2) numbers None [])) [1] None));
   APublication (Ok (mkPublication None [] None));
   APublication (Ok (mkPublication (Some (mkEvent (PyInt 1) (PyInt 4) numbers None [])) [1]
     (Some (mkRouted (Published (mkPublished (PyInt 2) (PyInt 4))) 1))));
   APublication (fails "cannot publish, session 5 doesn't exist")].
Proof. vm_compute. reflexivity. Qed.

(** ** tests/dealer_test.py *)
Inductive dcall := DAdd (d : details) | DRemove (sid : Z) | DMessage (sid : Z) (m : message) | DHas (procedure : string).
Definition dcall_step (d : dealer) (c : dcall) : dealer * answer :=
  match c with
  | DAdd x => let (d', r) := d_add_session d x in (d', AUnit r)
  | DRemove sid => let (d', r) := d_remove_session d sid in (d', AUnit r)
  | DMessage sid m => let (d', r) := d_receive_message d sid m in (d', ARouted r)
  | DHas p => (d, ABool (has_registration d p))
  end.
Definition register1 (p : string) := Register (mkRegister (PyInt 1) p []).
Definition registered1 := ARouted (Ok (mkRouted (Registered (mkRegistered (PyInt 1) (PyInt 1))) 1)).
Definition a_call (r : Z) (p : string) (o : dict) := Call (mkCall (PyInt r) p None None o no_payload).
Definition a_yield (r : Z) (o : dict) := Yield (mkYield (PyInt r) None None o no_payload).
Definition invoked (id : Z) (details : dict) :=
  ARouted (Ok (mkRouted (Invocation (mkInvocation (PyInt id) (PyInt 1) None None details no_payload)) 1)).
Definition resulted (r : Z) (details : dict) (to : Z) :=
  ARouted (Ok (mkRouted (Result (mkResult (PyInt r) None None details no_payload)) to)).

Example dealer_add_and_remove_session :
  play dcall_step dealer_init [DAdd (client 1); DAdd (client 1); DRemove 1; DRemove 3] =
  [AUnit (Ok tt); AUnit (fails "cannot add session twice"); AUnit (Ok tt); AUnit (fails "cannot remove non-existing session")].
Proof. vm_compute. reflexivity. Qed.
Example dealer_register_procedure :
  play dcall_step dealer_init [DAdd (client 1); DMessage 1 (register1 topic); DHas topic; DMessage 2 (register1 topic);
    DMessage 1 (register1 topic)] =
  [AUnit (Ok tt); registered1; ABool true; ARouted (fails "cannot register, session 2 doesn't exist");
   ARouted (Ok (mkRouted (Error (mkError (PyInt 64) (PyInt 1) "wamp.error.procedure_already_exists" None None [])) 1))].
Proof. vm_compute. reflexivity. Qed.
Example dealer_call_procedure_and_receive_yield :
  play dcall_step dealer_init [DAdd (client 1); DMessage 1 (register1 topic); DMessage 1 (a_call 2 topic []);
    DMessage 1 (a_call 3 "invalid" []); DMessage 1 (a_yield 2 []); DMessage 1 (a_yield 2 []);
    DMessage 1 (a_call 2 topic []); DMessage 3 (a_yield 3 [])] =
  [AUnit (Ok tt); registered1; invoked 2 [];
   ARouted (Ok (mkRouted (Error (mkError (PyInt 48) (PyInt 3) "wamp.error.no_such_procedure" None None [])) 1));
   resulted 2 [] 1; ARouted (fails "no pending calls for session 1"); invoked 3 [];
   ARouted (fails "received unexpected yield from session=3")].
Proof. vm_compute. reflexivity. Qed.
Example dealer_unregister_procedure_not_registered :
  play dcall_step dealer_init [DAdd (client 1); DMessage 1 (Unregister (mkUnregister (PyInt 1) (PyInt 1)))] =
  [AUnit (Ok tt); ARouted (fails "cannot unregister, session 1 haven't registered for 1")].
Proof. vm_compute. reflexivity. Qed.
Example dealer_unregister_procedure :
  let unregister := Unregister (mkUnregister (PyInt 2) (PyInt 1)) in
  play dcall_step dealer_init [DAdd (client 1); DMessage 1 (register1 topic); DMessage 1 unregister; DHas topic;
    DMessage 2 unregister; DMessage 1 (Unregister (mkUnregister (PyInt 3) (PyInt 3)))] =
  [AUnit (Ok tt); registered1; ARouted (Ok (mkRouted (Unregistered (mkUnregistered (PyInt 2))) 1)); ABool false;
   ARouted (fails "cannot unregister, session 2 doesn't exist");
   ARouted (fails "cannot unregister, session 1 haven't registered for 3")].
Proof. vm_compute. reflexivity. Qed.
Example dealer_receive_invalid_message :
  play dcall_step dealer_init [DMessage 1 subscribe1] = [ARouted (fails "message type not supported")].
Proof. vm_compute. reflexivity. Qed.
(** The test yields for the request id of the RESULT, which happens to be the invocation id (2). *)
Example dealer_progressive_call_results :
  let progress := [(VStr OPTION_PROGRESS, VBool true)] in
  play dcall_step dealer_init
    ([DAdd (client 1); DAdd (client 2); DMessage 1 (register1 "foo.bar");
      DMessage 2 (a_call 2 "foo.bar" [(VStr OPTION_RECEIVE_PROGRESS, VBool true)])]
     ++ repeat (DMessage 1 (a_yield 2 progress)) 10 ++ [DMessage 1 (a_yield 2 []); DMessage 1 (a_yield 2 [])]) =
  [AUnit (Ok tt); AUnit (Ok tt); registered1; invoked 2 [(VStr OPTION_RECEIVE_PROGRESS, VBool true)]]
  ++ repeat (resulted 2 progress 2) 10 ++ [resulted 2 [] 2; ARouted (fails "no pending calls for session 1")].
Proof. vm_compute. reflexivity. Qed.
Example dealer_progressive_call_invocations :
  let progress := [(VStr OPTION_PROGRESS, VBool true)] in
  play dcall_step dealer_init
    ([DAdd (client 1); DAdd (client 2); DMessage 1 (register1 "foo.bar"); DMessage 2 (a_call 2 "foo.bar" progress)]
     ++ repeat (DMessage 2 (a_call 2 "foo.bar" progress)) 10 ++ [DMessage 2 (a_call 2 "foo.bar" [])]) =
  [AUnit (Ok tt); AUnit (Ok tt); registered1; invoked 2 progress] ++ repeat (invoked 2 progress) 10 ++ [invoked 3 []].
Proof. vm_compute. reflexivity. Qed.

(** ** tests/test_session.py, with the JSON serializer *)
Inductive scall := Send (m : message) | Receive (m : message).
Inductive sanswer := Sent (r : res string) | Received (r : res message).
Definition scall_step (s : session) (c : scall) : session * sanswer :=
  match c with
  | Send m => let (s', r) := send_message python_json s m in (s', Sent (let! b := r in Ok (decode_str b)))
  | Receive m => let (s', r) := receive_message s m in (s', Received r)
  end.
Definition s_register (r : Z) (p : string) := Register (mkRegister (PyInt r) p []).
Definition s_registered (r g : Z) := Registered (mkRegistered (PyInt r) (PyInt g)).
Definition s_error (t r : Z) (uri : string) := Error (mkError (PyInt t) (PyInt r) uri None None []).
Definition INVALID_ARGUMENT := "wamp.error.invalid_argument".
Definition INVALID_URI := "wamp.error.invalid_uri".
Definition s_subscribe (r : Z) := Subscribe (mkSubscribe (PyInt r) "topic" []).
Definition s_publish := Publish (mkPublish (PyInt 6) "topic" None None [(VStr "acknowledge", VBool true)]).
Definition sent (s : string) := Sent (Ok s).
Definition took (m : message) := Received (Ok m).

Example session_register :
  play scall_step session_init [Send (s_register 2 "io.xconn.test"); Receive (s_registered 2 3)] =
  [sent "[64, 2, {}, ""io.xconn.test""]"; took (s_registered 2 3)].
Proof. vm_compute. reflexivity. Qed.
Example session_register_error :
  play scall_step session_init [Send (s_register 2 "io.xconn.test"); Receive (s_error 64 2 INVALID_ARGUMENT)] =
  [sent "[64, 2, {}, ""io.xconn.test""]"; took (s_error 64 2 INVALID_ARGUMENT)].
Proof. vm_compute. reflexivity. Qed.
Example session_call :
  let invocation := Invocation (mkInvocation (PyInt 2) (PyInt 1) None None [] no_payload) in
  let result := Result (mkResult (PyInt 2) None None [] no_payload) in
  play scall_step session_init [Send (s_register 1 "foo.bar"); Receive (s_registered 1 1); Send (a_call 2 "foo.bar" []);
    Receive invocation; Send (a_yield 2 []); Receive result] =
  [sent "[64, 1, {}, ""foo.bar""]"; took (s_registered 1 1); sent "[48, 2, {}, ""foo.bar""]"; took invocation;
   sent "[70, 2, {}]"; took result].
Proof. vm_compute. reflexivity. Qed.
Example session_call_error :
  play scall_step session_init [Send (a_call 1 "io.xconn.test" []); Receive (s_error 48 1 INVALID_ARGUMENT)] =
  [sent "[48, 1, {}, ""io.xconn.test""]"; took (s_error 48 1 INVALID_ARGUMENT)].
Proof. vm_compute. reflexivity. Qed.
Example session_unregister :
  let unregistered := Unregistered (mkUnregistered (PyInt 1)) in
  play scall_step session_init [Send (s_register 1 "foo.bar"); Receive (s_registered 1 1);
    Send (Unregister (mkUnregister (PyInt 1) (PyInt 1))); Receive unregistered] =
  [sent "[64, 1, {}, ""foo.bar""]"; took (s_registered 1 1); sent "[66, 1, 1]"; took unregistered].
Proof. vm_compute. reflexivity. Qed.
Example session_unregister_error :
  play scall_step session_init [Send (Unregister (mkUnregister (PyInt 3) (PyInt 3))); Receive (s_error 66 3 INVALID_ARGUMENT)] =
  [sent "[66, 3, 3]"; took (s_error 66 3 INVALID_ARGUMENT)].
Proof. vm_compute. reflexivity. Qed.
Example session_subscribe :
  let subscribed := Subscribed (mkSubscribed (PyInt 7) (PyInt 8)) in
  let event := Event (mkEvent (PyInt 8) (PyInt 6) None None []) in
  play scall_step session_init [Send (s_subscribe 7); Receive subscribed; Receive event] =
  [sent "[32, 7, {}, ""topic""]"; took subscribed; took event].
Proof. vm_compute. reflexivity. Qed.
Example session_subscribe_error :
  play scall_step session_init [Send (s_subscribe 7); Receive (s_error 32 7 INVALID_URI)] =
  [sent "[32, 7, {}, ""topic""]"; took (s_error 32 7 INVALID_URI)].
Proof. vm_compute. reflexivity. Qed.
Example session_unsubscribe :
  let subscribed := Subscribed (mkSubscribed (PyInt 7) (PyInt 8)) in
  let unsubscribed := Unsubscribed (mkUnsubscribed (PyInt 8)) in
  play scall_step session_init [Send (s_subscribe 7); Receive subscribed;
    Send (Unsubscribe (mkUnsubscribe (PyInt 8) (PyInt 8))); Receive unsubscribed] =
  [sent "[32, 7, {}, ""topic""]"; took subscribed; sent "[34, 8, 8]"; took unsubscribed].
Proof. vm_compute. reflexivity. Qed.
Example session_unsubscribe_error :
  play scall_step session_init [Send (Unsubscribe (mkUnsubscribe (PyInt 8) (PyInt 8))); Receive (s_error 34 8 INVALID_URI)] =
  [sent "[34, 8, 8]"; took (s_error 34 8 INVALID_URI)].
Proof. vm_compute. reflexivity. Qed.
Example session_publish :
  let published := Published (mkPublished (PyInt 6) (PyInt 6)) in
  play scall_step session_init [Send s_publish; Receive published] =
  [sent "[16, 6, {""acknowledge"": true}, ""topic""]"; took published].
Proof. vm_compute. reflexivity. Qed.
Example session_publish_error :
  play scall_step session_init [Send s_publish; Receive (s_error 16 6 INVALID_URI)] =
  [sent "[16, 6, {""acknowledge"": true}, ""topic""]"; took (s_error 16 6 INVALID_URI)].
Proof. vm_compute. reflexivity. Qed.
Example session_error :
  play scall_step session_init [Send (s_error 68 10 "wamp.error.procedure_already_exists")] =
  [sent "[8, 68, 10, {}, ""wamp.error.procedure_already_exists""]"].
Proof. vm_compute. reflexivity. Qed.
(** The model leaves out [type(msg)] at the end of the "unknown ..." texts. *)
Example session_exceptions :
  play scall_step session_init
    [Send (a_yield 5 []); Send (s_error 64 10 "uris.PROCEDURE_ALREADY_EXISTS"); Send (s_registered 11 12);
     Receive (s_register 100 "io.xconn.test"); Receive (s_error 65 100 INVALID_ARGUMENT);
     Receive (s_error 48 100 INVALID_ARGUMENT); Receive (s_error 64 100 INVALID_ARGUMENT);
     Receive (s_error 66 100 INVALID_ARGUMENT); Receive (s_error 32 100 INVALID_ARGUMENT);
     Receive (s_error 34 100 INVALID_ARGUMENT); Receive (s_error 16 100 INVALID_ARGUMENT)] =
  [Sent (fails "cannot yield for unknown invocation request"); Sent (fails "send only supported for invocation error");
   Sent (fails "unknown message type"); Received (fails "unknown message"); Received (fails "unknown error message type");
   Received (fails "received ERROR for invalid call request"); Received (fails "received ERROR for invalid register request");
   Received (fails "received ERROR for invalid unregister request"); Received (fails "received ERROR for invalid subscribe request");
   Received (fails "received ERROR for invalid unsubscribe request"); Received (fails "received ERROR for invalid publish request")].
Proof. vm_compute. reflexivity. Qed.

(** ** tests/messages/test_util.py *)
Example util_realm :
  validate_realm_or_raise VNone "error" = Raise (LibError "InvalidRealmError" "realm cannot be null for error") /\
  validate_realm_or_raise (VInt 1) "error" = Raise (LibError "InvalidRealmError" "realm must be of type string for error") /\
  validate_realm_or_raise (VStr "realm1") "" = Ok (VStr "realm1").
Proof. repeat split; vm_compute; reflexivity. Qed.
Example util_details :
  validate_details_or_raise (VList [VStr "detail"]) "Ping" None =
    Raise (LibError "InvalidDetailsError" "details must be of type dictionary for Ping") /\
  validate_details_or_raise (VList [VStr "detail"]) "Ping" (Some "options") =
    Raise (LibError "InvalidDetailsError" "options must be of type dictionary for Ping") /\
  validate_details_or_raise (VDict [(VInt 23, VStr "v")]) "Ping" None =
    Raise (LibError "InvalidDetailsError" "invalid type for key '23' in extra details for Ping") /\
  validate_details_or_raise (VDict []) "" None = Ok (VDict []) /\
  validate_details_or_raise (VDict [(VStr "authid", VStr "mahad")]) "" None = Ok (VDict [(VStr "authid", VStr "mahad")]).
Proof. repeat split; vm_compute; reflexivity. Qed.
Example util_session_id :
  Forall (fun v => validate_session_id_or_raise v "Pong" None = Raise (LibError "ProtocolError" "session ID must be an integer for Pong"))
    [VNone; VFloat 4607182418800017408; VDict [(VStr "k", VStr "v")]] /\
  Forall (fun v => validate_session_id_or_raise v "Pong" None = Raise (LibError "ProtocolError" "invalid Session ID value for Pong"))
    [VInt (-10); VInt 9007199254740993] /\
  validate_session_id_or_raise (VInt (-1)) "Pong" (Some "request ID") = Raise (LibError "ProtocolError" "invalid request ID value for Pong") /\
  Forall (fun v => validate_session_id_or_raise v "" None = Ok v) [VInt 1; VInt 30; VInt 9007199254740992].
Proof. repeat constructor. Qed.
Example util_uri :
  validate_uri_or_raise VNone "error" = Raise (LibError "InvalidUriError" "uri cannot be null for error") /\
  validate_uri_or_raise (VInt 3) "error" = Raise (LibError "InvalidUriError" "uri must be of type string for error") /\
  validate_uri_or_raise (VStr "wamp.close.goodbye_and_out") "" = Ok (VStr "wamp.close.goodbye_and_out") /\
  validate_procedure_or_raise (VInt 3) "error" = Raise (LibError "InvalidUriError" "procedure must be of type string for error") /\
  validate_procedure_or_raise (VStr "io.xconn.echo") "" = Ok (VStr "io.xconn.echo").
Proof. repeat split; vm_compute; reflexivity. Qed.
Example util_sanity_check :
  sanity_check_object (VStr "wamp message") 1 1 1 "hello" = fails "invalid message type str for hello, type should be a list" /\
  sanity_check_object (VList []) 1 1 1 "hello" = fails "invalid message length 0, must be at least 1" /\
  sanity_check_object (VList [VInt 1; VStr "io.xconn"]) 1 1 1 "hello" = fails "invalid message length 2, must be at most 1" /\
  sanity_check_object (VList [VInt 2; VStr "io.xconn"; VDict []]) 3 3 1 "hello" = fails "invalid message id 2 for hello, expected 1" /\
  sanity_check_object (VList [VInt 1; VStr "io.xconn"; VDict []]) 3 3 1 "hello" = Ok tt.
Proof. repeat split; vm_compute; reflexivity. Qed.

(** ** tests/serializers: test_cbor.py, test_json.py, test_msgpack.py, and the two TypeErrors of test_serializer.py *)
Definition hello_of (role : string) : message := Hello (mkHello "realm1" [(VStr role, VDict [])] None None None).
Definition through (c : codec) (m : message) : res message := let! b := serialize c m in deserialize c b.
Example serializers_hello :
  to_message (VList [VInt 1; VStr "realm1"; VDict [(VStr "roles", VDict [(VStr "callee", VDict [])])]]) = Ok (hello_of "callee") /\
  through cbor (hello_of "caller") = Ok (hello_of "caller") /\
  through python_json (hello_of "callee") = Ok (hello_of "callee") /\
  through msgpack (hello_of "callee") = Ok (hello_of "callee").
Proof. repeat split; vm_compute; reflexivity. Qed.
Example serializers_type_errors :
  (exists s, to_message (VStr "Hello World!") = Raise (TypeError s)) /\ (exists s, to_message (VList [VStr "hi"]) = Raise (TypeError s)).
Proof. split; eexists; vm_compute; reflexivity. Qed.
