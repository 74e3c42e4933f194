(** * PropsSession: property theorems C21-C29 (WAMPSession).

    [run c ops] executes any list of [send_message] / [receive_message] calls on a fresh session with codec [c];
    it returns the final session and the history (newest first).  [receives s m] / [sends c s m] is what the
    next call returns. *)
From Coq Require Import String Ascii List ZArith Bool Lia.
From Verif Require Import PyBase Messages Parse Serializer SpecSchema SerializerFacts.
From Verif Require Import SpecHistory Session SpecSession SessionRun SessionFacts.
Import ListNotations.
Local Open Scope Z_scope.

(** How [since] is to be read. *)
Theorem C21_since_meaning : forall E (opens closes : E -> bool) h, since opens closes h = true <->
  exists newer e older, h = newer ++ e :: older /\ opens e = true /\ forall x, In x newer -> closes x = false.
Proof. exact @since_spec. Qed.
Print Assumptions C21_since_meaning.

(** C21-C25 in one statement: every decision is the one computed from the history. *)
Theorem C21_C25_decisions : forall c ops m,
  (receives (fst (run c ops)) m = Ok m <-> acceptable (snd (run c ops)) (Rcv m) = true) /\
  (receives (fst (run c ops)) m <> Ok m -> exists e, receives (fst (run c ops)) m = Raise (ValueError [e])).
Proof. exact all_decided. Qed.
Print Assumptions C21_C25_decisions.

(** C21 *)
Theorem C21_result : forall c ops m,
  receives (fst (run c ops)) (Result m) = Ok (Result m) <->
  call_open (pyint_Z (re_request m)) (snd (run c ops)) = true.
Proof. exact (fun c ops m => receive_iff c ops (Result m)). Qed.
Print Assumptions C21_result.

Theorem C21_error : forall c ops m, pyint_Z (er_type m) = T_CALL ->
  (receives (fst (run c ops)) (Error m) = Ok (Error m) <->
   call_open (pyint_Z (er_request m)) (snd (run c ops)) = true).
Proof. exact call_error_iff. Qed.
Print Assumptions C21_error.

Theorem C21_at_most_once : forall c ops r,
  (times (taken (answered_call r)) (snd (run c ops)) <= times (sent_call r) (snd (run c ops)))%nat.
Proof. exact calls_answered_once. Qed.
Print Assumptions C21_at_most_once.

Definition any_codec : codec := mkCodec (fun _ => Ok ["x"%char]) (fun _ => Ok VNone).
Definition ex_call r := Call (mkCall (PyInt r) "p" None None [] no_payload).
Definition ex_result r d := Result (mkResult (PyInt r) None None d no_payload).

Example C21_case :
  let sh := run any_codec [Snd (ex_call 1); Snd (ex_call 2); Rcv (ex_result 1 [])] in
  receives (fst sh) (ex_result 2 []) = Ok (ex_result 2 []) /\ call_open 2 (snd sh) = true /\
  call_open 1 (snd sh) = false /\ times (taken (answered_call 1)) (snd sh) = 1%nat.
Proof. repeat split. Qed.

(** C22 *)
Theorem C22_registered : forall c ops m,
  receives (fst (run c ops)) (Registered m) = Ok (Registered m) <->
  register_open (pyint_Z (rd_request m)) (snd (run c ops)) = true.
Proof. exact (fun c ops m => receive_iff c ops (Registered m)). Qed.
Print Assumptions C22_registered.

Theorem C22_unregistered : forall c ops m,
  receives (fst (run c ops)) (Unregistered m) = Ok (Unregistered m) <->
  exists g, unregister_target (pyint_Z (un_request m)) (snd (run c ops)) = Some g /\
            registered_now g (snd (run c ops)) = true.
Proof. exact unregistered_iff. Qed.
Print Assumptions C22_unregistered.

Theorem C22_errors : forall c ops m,
  (pyint_Z (er_type m) = T_REGISTER ->
   (receives (fst (run c ops)) (Error m) = Ok (Error m) <->
    register_open (pyint_Z (er_request m)) (snd (run c ops)) = true)) /\
  (pyint_Z (er_type m) = T_UNREGISTER ->
   (receives (fst (run c ops)) (Error m) = Ok (Error m) <->
    exists g, unregister_target (pyint_Z (er_request m)) (snd (run c ops)) = Some g)).
Proof. exact reg_errors_iff. Qed.
Print Assumptions C22_errors.

Theorem C22_invocation : forall c ops m,
  receives (fst (run c ops)) (Invocation m) = Ok (Invocation m) <->
  registered_now (pyint_Z (iv_registration m)) (snd (run c ops)) = true.
Proof. exact (fun c ops m => receive_iff c ops (Invocation m)). Qed.
Print Assumptions C22_invocation.

Definition ex_register r := Register (mkRegister (PyInt r) "p" []).
Definition ex_registered r g := Registered (mkRegistered (PyInt r) (PyInt g)).
Definition ex_unregister r g := Unregister (mkUnregister (PyInt r) (PyInt g)).
Definition ex_unregistered r := Unregistered (mkUnregistered (PyInt r)).
Definition ex_invocation r g := Invocation (mkInvocation (PyInt r) (PyInt g) None None [] no_payload).

Example C22_case :
  let sh := run any_codec [Snd (ex_register 1); Rcv (ex_registered 1 9); Snd (ex_unregister 2 9)] in
  unregister_target 2 (snd sh) = Some 9 /\ registered_now 9 (snd sh) = true /\
  receives (fst sh) (ex_unregistered 2) = Ok (ex_unregistered 2) /\
  receives (fst sh) (ex_invocation 1 9) = Ok (ex_invocation 1 9) /\
  receives (fst sh) (ex_invocation 1 8) <> Ok (ex_invocation 1 8).
Proof. repeat split. discriminate. Qed.

(** C23 *)
Theorem C23_subscribed : forall c ops m,
  receives (fst (run c ops)) (Subscribed m) = Ok (Subscribed m) <->
  subscribe_open (pyint_Z (sd_request m)) (snd (run c ops)) = true.
Proof. exact (fun c ops m => receive_iff c ops (Subscribed m)). Qed.
Print Assumptions C23_subscribed.

Theorem C23_unsubscribed : forall c ops m,
  receives (fst (run c ops)) (Unsubscribed m) = Ok (Unsubscribed m) <->
  exists g, unsubscribe_target (pyint_Z (ud_request m)) (snd (run c ops)) = Some g /\
            subscribed_now g (snd (run c ops)) = true.
Proof. exact unsubscribed_iff. Qed.
Print Assumptions C23_unsubscribed.

Theorem C23_errors : forall c ops m,
  (pyint_Z (er_type m) = T_SUBSCRIBE ->
   (receives (fst (run c ops)) (Error m) = Ok (Error m) <->
    subscribe_open (pyint_Z (er_request m)) (snd (run c ops)) = true)) /\
  (pyint_Z (er_type m) = T_UNSUBSCRIBE ->
   (receives (fst (run c ops)) (Error m) = Ok (Error m) <->
    exists g, unsubscribe_target (pyint_Z (er_request m)) (snd (run c ops)) = Some g)).
Proof. exact sub_errors_iff. Qed.
Print Assumptions C23_errors.

Theorem C23_event : forall c ops m,
  receives (fst (run c ops)) (Event m) = Ok (Event m) <->
  subscribed_now (pyint_Z (ev_subscription m)) (snd (run c ops)) = true.
Proof. exact (fun c ops m => receive_iff c ops (Event m)). Qed.
Print Assumptions C23_event.

Definition ex_subscribe r := Subscribe (mkSubscribe (PyInt r) "t" []).
Definition ex_subscribed r g := Subscribed (mkSubscribed (PyInt r) (PyInt g)).
Definition ex_unsubscribe r g := Unsubscribe (mkUnsubscribe (PyInt r) (PyInt g)).
Definition ex_unsubscribed r := Unsubscribed (mkUnsubscribed (PyInt r)).
Definition ex_event g := Event (mkEvent (PyInt g) (PyInt 7) None None []).

Example C23_case :
  let sh := run any_codec [Snd (ex_subscribe 1); Rcv (ex_subscribed 1 9); Snd (ex_unsubscribe 2 9)] in
  receives (fst sh) (ex_event 9) = Ok (ex_event 9) /\
  let sh' := run any_codec [Snd (ex_subscribe 1); Rcv (ex_subscribed 1 9); Snd (ex_unsubscribe 2 9);
                            Rcv (ex_unsubscribed 2)] in
  receives (fst sh') (ex_event 9) <> Ok (ex_event 9).
Proof. split; [reflexivity|discriminate]. Qed.

(** C24 *)
Theorem C24_yield : forall c ops m,
  (invocation_open (pyint_Z (yi_request m)) (snd (run c ops)) = true ->
   sends c (fst (run c ops)) (Yield m) = serialize c (Yield m)) /\
  (invocation_open (pyint_Z (yi_request m)) (snd (run c ops)) = false ->
   exists e, send_message c (fst (run c ops)) (Yield m) = (fst (run c ops), Raise (ValueError [e]))).
Proof. exact (fun c ops m => send_decided c ops (Yield m)). Qed.
Print Assumptions C24_yield.

Theorem C24_at_most_once : forall c ops r,
  (times (taken (sent_yield r)) (snd (run c ops)) <= times (got_invocation r) (snd (run c ops)))%nat.
Proof. exact yields_once. Qed.
Print Assumptions C24_at_most_once.

Example C24_case :
  let y := Yield (mkYield (PyInt 5) None None [] no_payload) in
  let ops := [Snd (ex_register 1); Rcv (ex_registered 1 9); Rcv (ex_invocation 5 9)] in
  sends any_codec (fst (run any_codec ops)) y = Ok ["x"%char] /\
  sends any_codec (fst (run any_codec (ops ++ [Snd y]))) y =
    Raise (ValueError ["cannot yield for unknown invocation request"%string]).
Proof. split; reflexivity. Qed.

(** C25 *)
Theorem C25_published : forall c ops m,
  receives (fst (run c ops)) (Published m) = Ok (Published m) <->
  publish_open (pyint_Z (pd_request m)) (snd (run c ops)) = true.
Proof. exact (fun c ops m => receive_iff c ops (Published m)). Qed.
Print Assumptions C25_published.

Theorem C25_error : forall c ops m, pyint_Z (er_type m) = T_PUBLISH ->
  (receives (fst (run c ops)) (Error m) = Ok (Error m) <->
   publish_open (pyint_Z (er_request m)) (snd (run c ops)) = true).
Proof. exact publish_error_iff. Qed.
Print Assumptions C25_error.

Theorem C25_at_most_once : forall c ops r,
  (times (taken (answered_publish r)) (snd (run c ops)) <= times (sent_ack_publish r) (snd (run c ops)))%nat.
Proof. exact publishes_answered_once. Qed.
Print Assumptions C25_at_most_once.

Definition ex_publish r o := Publish (mkPublish (PyInt r) "t" None None o).
Definition ex_published r := Published (mkPublished (PyInt r) (PyInt 3)).
Example C25_case :
  let sh := run any_codec [Snd (ex_publish 1 [(VStr "acknowledge", VInt 2)]); Snd (ex_publish 2 [])] in
  receives (fst sh) (ex_published 1) = Ok (ex_published 1) /\
  receives (fst sh) (ex_published 2) <> Ok (ex_published 2).
Proof. split; [reflexivity|discriminate]. Qed.

(** C26: false.  A rejected UNREGISTERED makes the session forget the UNREGISTER request: the router's ERROR for it,
    acceptable before, is now rejected. *)
Theorem C26_receive_refuted : exists ops m m' e,
  receives (fst (run any_codec ops)) m = Raise e /\
  receives (fst (run any_codec ops)) m' = Ok m' /\
  receives (fst (run any_codec (ops ++ [Rcv m]))) m' <> Ok m'.
Proof.
  exists [Snd (ex_unregister 1 9)], (ex_unregistered 1),
    (Error (mkError (PyInt T_UNREGISTER) (PyInt 1) "e" None None [])). eexists.
  split; [reflexivity|]. split; [reflexivity|discriminate].
Qed.
Print Assumptions C26_receive_refuted.

(** A CALL whose serialization fails is nevertheless outstanding afterwards. *)
Theorem C26_send_refuted : forall c m e, serialize c (Call m) = Raise e ->
  sends c session_init (Call m) = Raise e /\
  exists r, receives (fst (run c [])) r <> Ok r /\ receives (fst (run c [Snd (Call m)])) r = Ok r.
Proof. exact failed_send_leaves_request. Qed.
Print Assumptions C26_send_refuted.

Example C26_send_case : exists e,
  serialize (mkCodec (fun _ => Raise (TypeError "not serializable")) (fun _ => Ok VNone)) (ex_call 1) = Raise e.
Proof. eexists. reflexivity. Qed.

(** What does hold: a rejected message leaves the session exactly as it was, except an UNREGISTERED / UNSUBSCRIBED
    that answers an outstanding request about something not registered / subscribed; a send that the session itself
    rejects (as opposed to a serializer failure) changes nothing. *)
Theorem C26_receive_partial : forall c ops m e,
  receives (fst (run c ops)) m = Raise e -> names_ended_target (snd (run c ops)) m = false ->
  receive_message (fst (run c ops)) m = (fst (run c ops), Raise e).
Proof. exact rejected_receive_run. Qed.
Print Assumptions C26_receive_partial.

Theorem C26_send_partial : forall c ops m, acceptable (snd (run c ops)) (Snd m) = false ->
  exists e, send_message c (fst (run c ops)) m = (fst (run c ops), Raise (ValueError [e])).
Proof. exact (fun c ops m => proj2 (send_decided c ops m)). Qed.
Print Assumptions C26_send_partial.

Example C26_case :
  let sh := run any_codec [Snd (ex_call 1)] in
  (exists e, receives (fst sh) (ex_result 2 []) = Raise e) /\ names_ended_target (snd sh) (ex_result 2 []) = false /\
  acceptable (snd sh) (Snd (ex_result 1 [])) = false.
Proof. split; [eexists; reflexivity|split; reflexivity]. Qed.

(** C27: false.  A progressive RESULT ends the request, so the following RESULT is rejected. *)
Theorem C27_progressive_refuted : exists r,
  let prog := ex_result r [(VStr "progress", VBool true)] in
  receives (fst (run any_codec [Snd (ex_call r)])) prog = Ok prog /\
  receives (fst (run any_codec [Snd (ex_call r); Rcv prog])) (ex_result r []) <> Ok (ex_result r []).
Proof. exists 1. split; [reflexivity|discriminate]. Qed.
Print Assumptions C27_progressive_refuted.

(** Exactly what happens instead, for every session: directly after CALL r the first RESULT r is accepted whatever its
    details, and then no RESULT r is, until CALL r is sent again. *)
Theorem C27_first_result_partial : forall c ops m res1 res2,
  pyint_Z (re_request res1) = pyint_Z (ca_request m) -> pyint_Z (re_request res2) = pyint_Z (ca_request m) ->
  receives (fst (run c (ops ++ [Snd (Call m)]))) (Result res1) = Ok (Result res1) /\
  receives (fst (run c (ops ++ [Snd (Call m); Rcv (Result res1)]))) (Result res2) <> Ok (Result res2).
Proof. exact first_result. Qed.
Print Assumptions C27_first_result_partial.

(** C28: dropping from the past every message of an unrelated kind changes no decision. *)
Theorem C28_kinds_independent : forall c D ops m,
  let ops' := filter (fun o => D (op_kind o)) ops in
  (forallb D (may_depend_on (Rcv m)) = true -> receives (fst (run c ops)) m = receives (fst (run c ops')) m) /\
  (forallb D (may_depend_on (Snd m)) = true -> sends c (fst (run c ops)) m = sends c (fst (run c ops')) m).
Proof. exact kinds_independent. Qed.
Print Assumptions C28_kinds_independent.

Example C28_case :
  let D k := match k with KCall => true | _ => false end in
  forallb D (may_depend_on (Rcv (ex_result 1 []))) = true /\
  filter (fun o => D (op_kind o)) [Snd (ex_call 1); Snd (ex_subscribe 1); Rcv (ex_subscribed 1 1)] = [Snd (ex_call 1)].
Proof. split; reflexivity. Qed.

(** C29 *)
Theorem C29_send_returns : forall c s m b, sends c s m = Ok b -> serialize c m = Ok b.
Proof. exact send_returns. Qed.
Print Assumptions C29_send_returns.

Theorem C29_peer_receives : forall c s m, wf_message m -> codec_round_trips c (VList (marshal m)) ->
  exists b, serialize c m = Ok b /\ receive c s b = receive_message s (normalise m) /\
            fst (receive_message s (normalise m)) = fst (receive_message s m) /\
            took (snd (receive_message s (normalise m))) = took (snd (receive_message s m)).
Proof. exact receive_decodes. Qed.
Print Assumptions C29_peer_receives.

Theorem C29_undecodable : forall c s data e, deserialize c data = Raise e -> receive c s data = (s, Raise e).
Proof. exact receive_undecodable. Qed.
Print Assumptions C29_undecodable.

Example C29_case :
  let m := ex_call 1 in let c := mkCodec (fun _ => Ok ["x"%char]) (fun _ => Ok (VList (marshal m))) in
  wf_message m /\ codec_round_trips c (VList (marshal m)) /\ sends c session_init m = Ok ["x"%char].
Proof.
  cbv zeta. split; [|split; [|reflexivity]].
  - exists 1. split; [reflexivity|lia].
  - exists ["x"%char]. split; [reflexivity|]. split; [discriminate|reflexivity].
Qed.
