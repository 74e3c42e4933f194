(** * Acceptor: wampproto/acceptor.py.  Definitions only. *)
From Coq Require Import String Ascii List ZArith Bool.
From Verif Require Import PyBase Messages Parse Serializer Encoding Auth Joiner.
Import ListNotations.
Local Open Scope Z_scope.

(** uris.py:4 *)
Definition AUTHENTICATION_FAILED : string := "wamp.error.authentication_failed".

(** acceptor.py:7-10 *)
Definition ROUTER_ROLES : dict := [(VStr "dealer", no_features); (VStr "broker", no_features)].

(** acceptor.py:14-18; STATE_HELLO_RECEIVED is never used. *)
Inductive astate := A_NONE | A_CHALLENGE_SENT | A_WELCOME_SENT | A_ABORTED.

(** acceptor.py:25-45.  The authenticator object is represented by whether there is one; what its [authenticate] does
    is part of the environment of each step, as a user's authenticator may be stateful. *)
Record acceptor := mkAcceptor {
  a_roles : dict; a_has_auth : bool; a_session_id : Z;
  a_state : astate; a_method : option val; a_hello : option hello; a_response : option response;
  a_details : option details; a_public_key : option val; a_challenge : option string; a_secret : option string }.

(** acceptor.py:25-45; [sid] is the result of [generate_session_id()]. *)
Definition acceptor_init (roles : option dict) (has_auth : bool) (sid : Z) : acceptor :=
  mkAcceptor (match roles with Some r => r | None => ROUTER_ROLES end) has_auth sid
    A_NONE None None None None None None None.

(** Attribute assignments. *)
Definition a_set_state (a : acceptor) (s : astate) : acceptor :=
  mkAcceptor (a_roles a) (a_has_auth a) (a_session_id a) s (a_method a) (a_hello a) (a_response a) (a_details a)
    (a_public_key a) (a_challenge a) (a_secret a).
Definition a_set_hello (a : acceptor) (m : val) (h : hello) : acceptor :=
  mkAcceptor (a_roles a) (a_has_auth a) (a_session_id a) (a_state a) (Some m) (Some h) (a_response a) (a_details a)
    (a_public_key a) (a_challenge a) (a_secret a).
Definition a_set_response (a : acceptor) (r : response) : acceptor :=
  mkAcceptor (a_roles a) (a_has_auth a) (a_session_id a) (a_state a) (a_method a) (a_hello a) (Some r) (a_details a)
    (a_public_key a) (a_challenge a) (a_secret a).
Definition a_set_details (a : acceptor) (d : details) : acceptor :=
  mkAcceptor (a_roles a) (a_has_auth a) (a_session_id a) (a_state a) (a_method a) (a_hello a) (a_response a) (Some d)
    (a_public_key a) (a_challenge a) (a_secret a).
Definition a_set_public_key (a : acceptor) (k : val) : acceptor :=
  mkAcceptor (a_roles a) (a_has_auth a) (a_session_id a) (a_state a) (a_method a) (a_hello a) (a_response a)
    (a_details a) (Some k) (a_challenge a) (a_secret a).
Definition a_set_challenge (a : acceptor) (c : string) : acceptor :=
  mkAcceptor (a_roles a) (a_has_auth a) (a_session_id a) (a_state a) (a_method a) (a_hello a) (a_response a)
    (a_details a) (a_public_key a) (Some c) (a_secret a).
Definition a_set_secret (a : acceptor) (s : string) : acceptor :=
  mkAcceptor (a_roles a) (a_has_auth a) (a_session_id a) (a_state a) (a_method a) (a_hello a) (a_response a)
    (a_details a) (a_public_key a) (a_challenge a) (Some s).

(** What one step may observe outside the acceptor: the user's authenticator, [random.randbytes]
    (Random.v), the clock, and [json.dumps]. *)
Record env := mkEnv {
  e_auth : request -> verdict; e_random : bytes; e_now : string; e_json_dumps : val -> res bytes }.

(** [match method: case "...":] compares with ==. *)
Definition is_method (v : val) (name : string) : bool := match v with VStr s => String.eqb s name | _ => false end.

(** acceptor.py:86, 109, 122, 150, 168, 190 *)
Definition auth_abort (args : option (list val)) : message := Abort (mkAbort [] AUTHENTICATION_FAILED args None).

(** The WELCOME and the details stored with it: acceptor.py:64-70, 88-99, 152-164, 170-182, 192-202. *)
Definition do_welcome (a : acceptor) (realm authid authrole : string) (method : option string)
  : acceptor * res (option message) :=
  let welcome := mkWelcome (PyInt (a_session_id a)) (a_roles a) (Some authid) (Some authrole) method [] in
  (a_set_details (a_set_state a A_WELCOME_SENT)
     (mkDetails (we_session welcome) realm (we_authid welcome) (we_authrole welcome)),
   Ok (Some (Welcome welcome))).

(** acceptor.py:72-75 *)
Definition first_method (m : hello) : val :=
  match he_authmethods m with Some (v :: _) => v | _ => VStr "anonymous" end.

(** acceptor.py:59-141 *)
Definition receive_hello (e : env) (a0 : acceptor) (m : hello) : acceptor * res (option message) :=
  match a_state a0 with
  | A_NONE =>
      if negb (a_has_auth a0) then do_welcome a0 (he_realm m) "anonymous" "anonymous" (Some "anonymous"%string)
      else
        let method := first_method m in
        let a := a_set_hello a0 method m in
        if is_method method "anonymous" then
          match e_auth e (AnonymousRequest (he_realm m) (he_authid m) (he_authextra m)) with
          | Reject args => (a, Ok (Some (auth_abort (Some args))))
          | Accept r => do_welcome a (he_realm m) (resp_authid r) (resp_authrole r) (Some "anonymous"%string)
          end
        else if is_method method "cryptosign" then
          match he_authextra m with
          | None => (a, Raise (AttributeError "'NoneType' object has no attribute 'get'"))
          | Some extra =>
              match sget_default "pubkey" VNone extra with
              | VNone => (a, Raise (ValueError ["authextra must contain pubkey for cryptosign"%string]))
              | public_key =>
                  match e_auth e (CryptoSignRequest (he_realm m) (he_authid m) (he_authextra m) public_key) with
                  | Reject args => (a, Ok (Some (auth_abort (Some args))))
                  | Accept r =>
                      (a_set_state (a_set_public_key (a_set_response a r) public_key) A_CHALLENGE_SENT,
                       Ok (Some (Challenge (mkChallenge "cryptosign"
                         [(VStr "challenge", VStr (generate_cryptosign_challenge (e_random e)))]))))
                  end
              end
          end
        else if is_method method "wampcra" then
          match e_auth e (WAMPCRARequest (he_realm m) (he_authid m) (he_authextra m)) with
          | Reject args => (a, Ok (Some (auth_abort (Some args))))
          | Accept (PlainResponse _ _) => (a, Raise (ValueError ["invalid response type for WAMPCRA"%string]))
          | Accept (WAMPCRAResponse authid authrole secret salted) =>
              let a := a_set_secret (a_set_response a (WAMPCRAResponse authid authrole secret salted)) secret in
              match generate_wampcra_challenge (e_json_dumps e) (e_random e) (e_now e) (a_session_id a)
                      authid authrole "dynamic" with
              | Raise x => (a, Raise x)
              | Ok challenge =>
                  (a_set_challenge (a_set_state a A_CHALLENGE_SENT) challenge,
                   Ok (Some (Challenge (mkChallenge "wampcra" [(VStr "challenge", VStr challenge)]))))
              end
          end
        else if is_method method "ticket" then
          (a_set_state a A_CHALLENGE_SENT, Ok (Some (Challenge (mkChallenge "ticket" []))))
        else (a, Raise (ValueError ["unknown method"%string]))
  | _ => (a0, Raise (ValueError ["unknown state"%string]))
  end.

Definition none_attr {A} : res A := Raise (AttributeError "'NoneType' object").

(** acceptor.py:142-202; falling off the [match] returns None. *)
Definition receive_authenticate (cr : crypto) (e : env) (a : acceptor) (m : authenticate)
  : acceptor * res (option message) :=
  match a_state a with
  | A_CHALLENGE_SENT =>
      match a_method a with
      | None => (a, Ok None)
      | Some method =>
        if is_method method "cryptosign" then
          match (let! pk := unhexlify (match a_public_key a with Some v => v | None => VNone end) in
                 verify_cryptosign_signature cr (au_signature m) pk) with
          | Raise x => (a, Raise x)
          | Ok false => (a_set_state a A_ABORTED, Ok (Some (auth_abort None)))
          | Ok true =>
              match a_response a, a_hello a with
              | Some r, Some h => do_welcome a (he_realm h) (resp_authid r) (resp_authrole r) None
              | _, _ => (a_set_state a A_WELCOME_SENT, none_attr)
              end
          end
        else if is_method method "wampcra" then
          match a_challenge a, a_secret a with
          | Some challenge, Some secret =>
              match verify_wampcra_signature cr (au_signature m) challenge (encode_str secret) with
              | Raise x => (a, Raise x)
              | Ok false => (a_set_state a A_ABORTED, Ok (Some (auth_abort None)))
              | Ok true =>
                  match a_response a, a_hello a with
                  | Some r, Some h => do_welcome a (he_realm h) (resp_authid r) (resp_authrole r) None
                  | _, _ => (a_set_state a A_WELCOME_SENT, none_attr)
                  end
              end
          | _, _ => (a, none_attr)
          end
        else if is_method method "ticket" then
          match a_hello a with
          | None => (a, none_attr)
          | Some h =>
              match e_auth e (TicketRequest (he_realm h) (he_authid h) (he_authextra h) (au_signature m)) with
              | Reject args => (a, Ok (Some (auth_abort (Some args))))
              | Accept r => do_welcome a (he_realm h) (resp_authid r) (resp_authrole r) None
              end
          end
        else (a, Ok None)
      end
  | _ => (a, Raise (ValueError ["unknown state"%string]))
  end.

(** acceptor.py:55-204 *)
Definition acceptor_receive_message (cr : crypto) (e : env) (a : acceptor) (msg : message)
  : acceptor * res (option message) :=
  match a_state a with
  | A_WELCOME_SENT => (a, Raise (ValueError ["session was established, not expecting any new messages"%string]))
  | _ =>
      match msg with
      | Hello m => receive_hello e a m
      | Authenticate m => receive_authenticate cr e a m
      | Abort _ => (a_set_state a A_ABORTED, Ok None)
      | _ => (a, Ok None)
      end
  end.

(** [isinstance(to_send, Welcome) or isinstance(to_send, Abort)]: acceptor.py:51-53 *)
Definition final_reply (m : message) : bool := match m with Welcome _ | Abort _ => true | _ => false end.

(** acceptor.py:47-53; serializing [None] calls [None.marshal()]. *)
Definition acceptor_receive (cr : crypto) (c : codec) (e : env) (a : acceptor) (data : bytes)
  : acceptor * res (bytes * bool) :=
  match deserialize c data with
  | Raise x => (a, Raise x)
  | Ok m =>
      let '(a', r) := acceptor_receive_message cr e a m in
      (a', let! to_send := r in
           match to_send with
           | None => Raise (AttributeError "'NoneType' object has no attribute 'marshal'")
           | Some reply => let! b := serialize c reply in Ok (b, final_reply reply)
           end)
  end.

(** acceptor.py:206-207 *)
Definition is_aborted (a : acceptor) : bool := match a_state a with A_ABORTED => true | _ => false end.
(** acceptor.py:209-213 *)
Definition acceptor_details (a : acceptor) : res details :=
  match a_details a with Some d => Ok d | None => Raise (ValueError ["session is not setup yet"%string]) end.
