(** * Messages: the 24 message classes of wampproto/messages and their [marshal] methods.

    Fields are typed by the annotations of the [*Fields] constructors; ids may be bools at run time
    ([pyint]).  The interface classes [I*Fields] and property boilerplate carry no behaviour and are not
    modelled separately.  Definitions only. *)
From Coq Require Import String Ascii List ZArith Bool.
From Verif Require Import PyBase.
Import ListNotations.
Local Open Scope Z_scope.

(** messages/message.py:18-28 [BinaryPayload]; call.py:51-53, 75-84 (same in invocation.py, result.py,
    yield_.py): payload serializer id, payload, binary flag. *)
Record binpayload := mkBin {
  bp_serializer : option Z;
  bp_payload : option bytes;
  bp_binary : bool
}.
(** Defaults of the constructors: call.py:40-42. *)
Definition no_payload : binpayload := mkBin None None false.

(** hello.py:32-46 *)
Record hello := mkHello {
  he_realm : string; he_roles : dict; he_authid : option string;
  he_authmethods : option (list val); he_authextra : option dict }.
(** welcome.py:36-52 *)
Record welcome := mkWelcome {
  we_session : pyint; we_roles : dict; we_authid : option string; we_authrole : option string;
  we_authmethod : option string; we_authextra : dict }.
(** abort.py:28-34 *)
Record abort := mkAbort {
  ab_details : dict; ab_reason : string; ab_args : option (list val); ab_kwargs : option dict }.
(** challenge.py:20-23 *)
Record challenge := mkChallenge { ch_method : string; ch_extra : dict }.
(** authenticate.py:20-24 *)
Record authenticate := mkAuthenticate { au_signature : string; au_extra : dict }.
(** goodbye.py:20-23 *)
Record goodbye := mkGoodbye { gb_details : dict; gb_reason : string }.
(** error.py:36-52 *)
Record error := mkError {
  er_type : pyint; er_request : pyint; er_uri : string; er_args : option (list val);
  er_kwargs : option dict; er_details : dict }.
(** publish.py:32-46 *)
Record publish := mkPublish {
  pb_request : pyint; pb_topic : string; pb_args : option (list val); pb_kwargs : option dict;
  pb_options : dict }.
(** published.py:20-23 *)
Record published := mkPublished { pd_request : pyint; pd_publication : pyint }.
(** subscribe.py:24-29 *)
Record subscribe := mkSubscribe { su_request : pyint; su_topic : string; su_options : dict }.
(** subscribed.py:20-24 *)
Record subscribed := mkSubscribed { sd_request : pyint; sd_subscription : pyint }.
(** unsubscribe.py:20-24 *)
Record unsubscribe := mkUnsubscribe { us_request : pyint; us_subscription : pyint }.
(** unsubscribed.py:16-19 *)
Record unsubscribed := mkUnsubscribed { ud_request : pyint }.
(** event.py:32-46 *)
Record event := mkEvent {
  ev_subscription : pyint; ev_publication : pyint; ev_args : option (list val);
  ev_kwargs : option dict; ev_details : dict }.
(** call.py:32-53 *)
Record call := mkCall {
  ca_request : pyint; ca_procedure : string; ca_args : option (list val); ca_kwargs : option dict;
  ca_opts : dict; ca_bin : binpayload }.
(** cancel.py:19-23 *)
Record cancel := mkCancel { cn_request : pyint; cn_options : dict }.
(** result.py:28-47 *)
Record result := mkResult {
  re_request : pyint; re_args : option (list val); re_kwargs : option dict; re_dets : dict;
  re_bin : binpayload }.
(** register.py:24-28 *)
Record register := mkRegister { rg_request : pyint; rg_procedure : string; rg_options : dict }.
(** registered.py:20-24 *)
Record registered := mkRegistered { rd_request : pyint; rd_registration : pyint }.
(** unregister.py:20-24 *)
Record unregister := mkUnregister { ur_request : pyint; ur_registration : pyint }.
(** unregistered.py:16-19 *)
Record unregistered := mkUnregistered { un_request : pyint }.
(** invocation.py:32-53 *)
Record invocation := mkInvocation {
  iv_request : pyint; iv_registration : pyint; iv_args : option (list val); iv_kwargs : option dict;
  iv_dets : dict; iv_bin : binpayload }.
(** interrupt.py:19-22 *)
Record interrupt := mkInterrupt { it_request : pyint; it_options : dict }.
(** yield_.py:28-47 *)
Record yield := mkYield {
  yi_request : pyint; yi_args : option (list val); yi_kwargs : option dict; yi_opts : dict;
  yi_bin : binpayload }.

(** The closed family of message classes (messages/__init__.py:27-77).  User subclasses are not modelled. *)
Inductive message : Type :=
| Hello (m : hello) | Welcome (m : welcome) | Abort (m : abort) | Challenge (m : challenge)
| Authenticate (m : authenticate) | Goodbye (m : goodbye) | Error (m : error)
| Publish (m : publish) | Published (m : published)
| Subscribe (m : subscribe) | Subscribed (m : subscribed)
| Unsubscribe (m : unsubscribe) | Unsubscribed (m : unsubscribed) | Event (m : event)
| Call (m : call) | Cancel (m : cancel) | Result (m : result)
| Register (m : register) | Registered (m : registered)
| Unregister (m : unregister) | Unregistered (m : unregistered)
| Invocation (m : invocation) | Interrupt (m : interrupt) | Yield (m : yield).

(** Class attribute [TYPE]: hello.py:71, welcome.py:81, abort.py:55, challenge.py:36, authenticate.py:37,
    goodbye.py:36, error.py:92, publish.py:82, published.py:36, subscribe.py:46, subscribed.py:37,
    unsubscribe.py:37, unsubscribed.py:28, event.py:82, call.py:89, cancel.py:36, result.py:79,
    register.py:45, registered.py:37, unregister.py:37, unregistered.py:28, invocation.py:89,
    interrupt.py:35, yield_.py:79. *)
Definition T_HELLO := 1.       Definition T_WELCOME := 2.     Definition T_ABORT := 3.
Definition T_CHALLENGE := 4.   Definition T_AUTHENTICATE := 5. Definition T_GOODBYE := 6.
Definition T_ERROR := 8.       Definition T_PUBLISH := 16.    Definition T_PUBLISHED := 17.
Definition T_SUBSCRIBE := 32.  Definition T_SUBSCRIBED := 33. Definition T_UNSUBSCRIBE := 34.
Definition T_UNSUBSCRIBED := 35. Definition T_EVENT := 36.    Definition T_CALL := 48.
Definition T_CANCEL := 49.     Definition T_RESULT := 50.     Definition T_REGISTER := 64.
Definition T_REGISTERED := 65. Definition T_UNREGISTER := 66. Definition T_UNREGISTERED := 67.
Definition T_INVOCATION := 68. Definition T_INTERRUPT := 69.  Definition T_YIELD := 70.

Definition message_TYPE (m : message) : Z :=
  match m with
  | Hello _ => T_HELLO | Welcome _ => T_WELCOME | Abort _ => T_ABORT | Challenge _ => T_CHALLENGE
  | Authenticate _ => T_AUTHENTICATE | Goodbye _ => T_GOODBYE | Error _ => T_ERROR
  | Publish _ => T_PUBLISH | Published _ => T_PUBLISHED | Subscribe _ => T_SUBSCRIBE
  | Subscribed _ => T_SUBSCRIBED | Unsubscribe _ => T_UNSUBSCRIBE | Unsubscribed _ => T_UNSUBSCRIBED
  | Event _ => T_EVENT | Call _ => T_CALL | Cancel _ => T_CANCEL | Result _ => T_RESULT
  | Register _ => T_REGISTER | Registered _ => T_REGISTERED | Unregister _ => T_UNREGISTER
  | Unregistered _ => T_UNREGISTERED | Invocation _ => T_INVOCATION | Interrupt _ => T_INTERRUPT
  | Yield _ => T_YIELD
  end.

(** [X is None -> {}] default of the [*Fields] constructors, e.g. call.py:49, welcome.py:52. *)
Definition dict_or_empty (d : option dict) : dict := match d with Some d => d | None => [] end.

Definition X_PAYLOAD_SERIALIZER : string := "x_payload_serializer".

(** call.py:125-130 [Call.options], invocation.py:124-129 [Invocation.details], result.py:101-106
    [Result.details], yield_.py:101-106 [Yield.options]: the getter writes the payload serializer id into
    the dict.  Simplification: the write is not stored back in the object; the getter is idempotent and
    every read goes through it, so no reader can tell. *)
Definition with_serializer (d : dict) (b : binpayload) : dict :=
  match bp_serializer b with
  | Some s => sset X_PAYLOAD_SERIALIZER (VInt s) d
  | None => d
  end.
Definition ca_options (m : call) : dict := with_serializer (ca_opts m) (ca_bin m).
Definition iv_details (m : invocation) : dict := with_serializer (iv_dets m) (iv_bin m).
Definition re_details (m : result) : dict := with_serializer (re_dets m) (re_bin m).
Definition yi_options (m : yield) : dict := with_serializer (yi_opts m) (yi_bin m).

(** The trailing args/kwargs part shared by error.py:154-161, call.py:150-157, result.py:134-141,
    invocation.py:149-156, yield_.py:134-141, publish.py:139-146, event.py:139-146. *)
Definition args_kwargs_tail (args : option (list val)) (kwargs : option dict) : list val :=
  (match args with Some a => [VList a] | None => [] end) ++
  (match kwargs with
   | Some k => (match args with None => [VList []] | Some _ => [] end) ++ [VDict k]
   | None => []
   end).

(** hello.py:120-132 *)
Definition marshal_hello (m : hello) : list val :=
  let details := [(VStr "roles", VDict (he_roles m))] in
  let details := match he_authid m with Some a => sset "authid" (VStr a) details | None => details end in
  let details := match he_authmethods m with Some a => sset "authmethods" (VList a) details | None => details end in
  let details := match he_authextra m with Some a => sset "authextra" (VDict a) details | None => details end in
  [VInt T_HELLO; VStr (he_realm m); VDict details].

(** welcome.py:135-150.  [authextra] is never None: welcome.py:52. *)
Definition marshal_welcome (m : welcome) : list val :=
  let details := [(VStr "roles", VDict (we_roles m))] in
  let details := match we_authid m with Some a => sset "authid" (VStr a) details | None => details end in
  let details := match we_authrole m with Some a => sset "authrole" (VStr a) details | None => details end in
  let details := match we_authmethod m with Some a => sset "authmethod" (VStr a) details | None => details end in
  let details := sset "authextra" (VDict (we_authextra m)) details in
  [VInt T_WELCOME; pyint_val (we_session m); VDict details].

(** abort.py:94-95 (args and kwargs are not emitted). *)
Definition marshal_abort (m : abort) : list val :=
  [VInt T_ABORT; VDict (ab_details m); VStr (ab_reason m)].

(** challenge.py:65-66 *)
Definition marshal_challenge (m : challenge) : list val :=
  [VInt T_CHALLENGE; VStr (ch_method m); VDict (ch_extra m)].

(** authenticate.py:66-67 *)
Definition marshal_authenticate (m : authenticate) : list val :=
  [VInt T_AUTHENTICATE; VStr (au_signature m); VDict (au_extra m)].

(** goodbye.py:65-66 *)
Definition marshal_goodbye (m : goodbye) : list val :=
  [VInt T_GOODBYE; VDict (gb_details m); VStr (gb_reason m)].

(** error.py:152-163 *)
Definition marshal_error (m : error) : list val :=
  [VInt T_ERROR; pyint_val (er_type m); pyint_val (er_request m); VDict (er_details m); VStr (er_uri m)]
  ++ args_kwargs_tail (er_args m) (er_kwargs m).

(** publish.py:137-148 *)
Definition marshal_publish (m : publish) : list val :=
  [VInt T_PUBLISH; pyint_val (pb_request m); VDict (pb_options m); VStr (pb_topic m)]
  ++ args_kwargs_tail (pb_args m) (pb_kwargs m).

(** published.py:65-66 *)
Definition marshal_published (m : published) : list val :=
  [VInt T_PUBLISHED; pyint_val (pd_request m); pyint_val (pd_publication m)].

(** subscribe.py:80-81 *)
Definition marshal_subscribe (m : subscribe) : list val :=
  [VInt T_SUBSCRIBE; pyint_val (su_request m); VDict (su_options m); VStr (su_topic m)].

(** subscribed.py:66-67 *)
Definition marshal_subscribed (m : subscribed) : list val :=
  [VInt T_SUBSCRIBED; pyint_val (sd_request m); pyint_val (sd_subscription m)].

(** unsubscribe.py:66-67 *)
Definition marshal_unsubscribe (m : unsubscribe) : list val :=
  [VInt T_UNSUBSCRIBE; pyint_val (us_request m); pyint_val (us_subscription m)].

(** unsubscribed.py:52-53 *)
Definition marshal_unsubscribed (m : unsubscribed) : list val :=
  [VInt T_UNSUBSCRIBED; pyint_val (ud_request m)].

(** event.py:137-148 *)
Definition marshal_event (m : event) : list val :=
  [VInt T_EVENT; pyint_val (ev_subscription m); pyint_val (ev_publication m); VDict (ev_details m)]
  ++ args_kwargs_tail (ev_args m) (ev_kwargs m).

(** call.py:148-159 (the payload itself is not emitted). *)
Definition marshal_call (m : call) : list val :=
  [VInt T_CALL; pyint_val (ca_request m); VDict (ca_options m); VStr (ca_procedure m)]
  ++ args_kwargs_tail (ca_args m) (ca_kwargs m).

(** cancel.py:65-66 *)
Definition marshal_cancel (m : cancel) : list val :=
  [VInt T_CANCEL; pyint_val (cn_request m); VDict (cn_options m)].

(** result.py:132-143 *)
Definition marshal_result (m : result) : list val :=
  [VInt T_RESULT; pyint_val (re_request m); VDict (re_details m)]
  ++ args_kwargs_tail (re_args m) (re_kwargs m).

(** register.py:79-80 *)
Definition marshal_register (m : register) : list val :=
  [VInt T_REGISTER; pyint_val (rg_request m); VDict (rg_options m); VStr (rg_procedure m)].

(** registered.py:66-67 *)
Definition marshal_registered (m : registered) : list val :=
  [VInt T_REGISTERED; pyint_val (rd_request m); pyint_val (rd_registration m)].

(** unregister.py:66-67 *)
Definition marshal_unregister (m : unregister) : list val :=
  [VInt T_UNREGISTER; pyint_val (ur_request m); pyint_val (ur_registration m)].

(** unregistered.py:52-53 *)
Definition marshal_unregistered (m : unregistered) : list val :=
  [VInt T_UNREGISTERED; pyint_val (un_request m)].

(** invocation.py:147-158 *)
Definition marshal_invocation (m : invocation) : list val :=
  [VInt T_INVOCATION; pyint_val (iv_request m); pyint_val (iv_registration m); VDict (iv_details m)]
  ++ args_kwargs_tail (iv_args m) (iv_kwargs m).

(** interrupt.py:64-65 *)
Definition marshal_interrupt (m : interrupt) : list val :=
  [VInt T_INTERRUPT; pyint_val (it_request m); VDict (it_options m)].

(** yield_.py:132-143 *)
Definition marshal_yield (m : yield) : list val :=
  [VInt T_YIELD; pyint_val (yi_request m); VDict (yi_options m)]
  ++ args_kwargs_tail (yi_args m) (yi_kwargs m).

(** [m.marshal()]: dynamic dispatch over the methods above (message.py:14-15). *)
Definition marshal (m : message) : list val :=
  match m with
  | Hello m => marshal_hello m | Welcome m => marshal_welcome m | Abort m => marshal_abort m
  | Challenge m => marshal_challenge m | Authenticate m => marshal_authenticate m
  | Goodbye m => marshal_goodbye m | Error m => marshal_error m | Publish m => marshal_publish m
  | Published m => marshal_published m | Subscribe m => marshal_subscribe m
  | Subscribed m => marshal_subscribed m | Unsubscribe m => marshal_unsubscribe m
  | Unsubscribed m => marshal_unsubscribed m | Event m => marshal_event m | Call m => marshal_call m
  | Cancel m => marshal_cancel m | Result m => marshal_result m | Register m => marshal_register m
  | Registered m => marshal_registered m | Unregister m => marshal_unregister m
  | Unregistered m => marshal_unregistered m | Invocation m => marshal_invocation m
  | Interrupt m => marshal_interrupt m | Yield m => marshal_yield m
  end.
