(** * Joiner: wampproto/joiner.py, types.py (SessionDetails), exception.py.  Definitions only. *)
From Coq Require Import String Ascii List ZArith Bool.
From Verif Require Import PyBase Messages Serializer Auth.
Import ListNotations.
Local Open Scope Z_scope.

(** types.py:6-38 *)
Record details := mkDetails {
  det_session : pyint; det_realm : string; det_authid : option string; det_authrole : option string }.

(** joiner.py:8-13 *)
Definition no_features : val := VDict [(VStr "features", VDict [])].
Definition CLIENT_ROLES : dict :=
  [(VStr "caller", no_features); (VStr "callee", no_features); (VStr "publisher", no_features);
   (VStr "subscriber", no_features)].

(** joiner.py:17-20 *)
Inductive jstate := J_NONE | J_HELLO_SENT | J_AUTHENTICATE_SENT | J_JOINED.

(** joiner.py:22-33.  The attributes of the authenticator are fixed; its [authenticate] method is a parameter of each
    step because a user's authenticator may be stateful. *)
Record joiner := mkJoiner {
  j_realm : string; j_method : string; j_authid : string; j_extra : dict;
  j_state : jstate; j_details : option details }.
Definition joiner_init (realm method authid : string) (extra : dict) : joiner :=
  mkJoiner realm method authid extra J_NONE None.
(** joiner.py:30: the default authenticator is [AnonymousAuthenticator("", {})]. *)
Definition joiner_with (realm : string) (a : client_auth) : joiner :=
  joiner_init realm (cl_method a) (cl_authid a) (cl_extra a).

Definition set_jstate (j : joiner) (s : jstate) : joiner :=
  mkJoiner (j_realm j) (j_method j) (j_authid j) (j_extra j) s (j_details j).

(** joiner.py:35-47 *)
Definition joiner_hello (j : joiner) (roles : option dict) : message :=
  Hello (mkHello (j_realm j) (match roles with Some r => r | None => CLIENT_ROLES end)
    (Some (j_authid j)) (Some [VStr (j_method j)]) (Some (j_extra j))).
(** joiner.py:35-50 *)
Definition send_hello (c : codec) (j : joiner) (roles : option dict) : joiner * res bytes :=
  (set_jstate j J_HELLO_SENT, serialize c (joiner_hello j roles)).

(** joiner.py:59-76 *)
Definition joiner_receive_message (authn : challenge -> res authenticate) (j : joiner) (msg : message)
  : joiner * res (option message) :=
  match msg with
  | Welcome m =>
      match j_state j with
      | J_HELLO_SENT | J_AUTHENTICATE_SENT =>
          (mkJoiner (j_realm j) (j_method j) (j_authid j) (j_extra j) J_JOINED
             (Some (mkDetails (we_session m) (j_realm j) (we_authid m) (we_authrole m))), Ok None)
      | _ => (j, Raise (ValueError ["received welcome when it was not expected"%string]))
      end
  | Challenge m =>
      match j_state j with
      | J_HELLO_SENT =>
          match authn m with
          | Ok a => (set_jstate j J_AUTHENTICATE_SENT, Ok (Some (Authenticate a)))
          | Raise e => (j, Raise e)
          end
      | _ => (j, Raise (ValueError ["received welcome when it was not expected"%string]))
      end
  | Abort m => (j, Raise (ApplicationError (ab_reason m) (ab_args m) (ab_kwargs m)))
  | _ => (j, Raise (ValueError ["received unknown message"%string]))
  end.

(** joiner.py:52-57 *)
Definition joiner_receive (c : codec) (authn : challenge -> res authenticate) (j : joiner) (data : bytes)
  : joiner * res (option bytes) :=
  match deserialize c data with
  | Raise e => (j, Raise e)
  | Ok m =>
      let '(j', r) := joiner_receive_message authn j m in
      (j', let! to_send := r in
           match to_send with
           | Some (Authenticate a) => let! b := serialize c (Authenticate a) in Ok (Some b)
           | _ => Ok None
           end)
  end.

(** joiner.py:78-82 *)
Definition joiner_details (j : joiner) : res details :=
  match j_details j with Some d => Ok d | None => Raise (ValueError ["session is not setup yet"%string]) end.
