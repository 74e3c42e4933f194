(** * SpecAcceptor: when may a router say WELCOME?  In terms of the history of one acceptor only (newest first). *)
From Coq Require Import String Ascii List ZArith Bool.
From Verif Require Import PyBase Messages Encoding Auth SpecHistory Acceptor.
Import ListNotations.
Local Open Scope Z_scope.

(** One received message, the environment (authenticator, randomness, clock) at that time, and the outcome. *)
Record aentry := mkEntry { ae_env : env; ae_msg : message; ae_out : res (option message) }.

Definition sent_welcome (e : aentry) : bool := match ae_out e with Ok (Some (Welcome _)) => true | _ => false end.
Definition sent_challenge (e : aentry) : bool := match ae_out e with Ok (Some (Challenge _)) => true | _ => false end.
Definition sent_abort (e : aentry) : bool := match ae_out e with Ok (Some (Abort _)) => true | _ => false end.
(** The peer's ABORT was taken. *)
Definition peer_aborted (e : aentry) : bool :=
  match ae_msg e, ae_out e with Abort _, Ok _ => true | _, _ => false end.

(** The HELLO that was answered by CHALLENGE, what the environment was then, and the CHALLENGE. *)
Definition challenge_of (e : aentry) : option (env * hello * challenge) :=
  match ae_msg e, ae_out e with Hello m, Ok (Some (Challenge c)) => Some (ae_env e, m, c) | _, _ => None end.
(** The WELCOME sent, if any. *)
Definition welcome_of (e : aentry) : option welcome :=
  match ae_out e with Ok (Some (Welcome w)) => Some w | _ => None end.

(** An AUTHENTICATE was answered by ABORT in a handshake using a signature. *)
Fixpoint signature_failed (h : list aentry) : bool :=
  match h with
  | [] => false
  | e :: h' =>
      (match ae_msg e, latest challenge_of h' with
       | Authenticate _, Some (_, _, c) => sent_abort e && negb (String.eqb (ch_method c) "ticket")
       | _, _ => false
       end) || signature_failed h'
  end.

Definition hello_allowed (h : list aentry) : bool :=
  negb (existsb sent_welcome h || existsb sent_challenge h || existsb peer_aborted h).
Definition authenticate_allowed (h : list aentry) : bool :=
  existsb sent_challenge h &&
  negb (existsb sent_welcome h || existsb peer_aborted h || signature_failed h).

(** The octets [sig] of a valid Ed25519 signature of [signed] under [pub], as the peer sent them. *)
Definition ed_signed (cr : crypto) (pub : bytes) (signature : string) (signed : bytes) : Prop :=
  length pub = 32%nat /\
  exists sig, length sig = 64%nat /\ unhexlify_str signature = Ok (sig ++ signed) /\ ed_verify cr pub signed sig = true.

(** Grounds for welcoming: realm, authid and authrole the session gets. *)
Inductive justified (cr : crypto) (has_auth : bool) (past : list aentry) (e : env)
  : message -> string -> string -> string -> Prop :=
| J_no_authenticator m :
    has_auth = false ->
    justified cr has_auth past e (Hello m) (he_realm m) "anonymous" "anonymous"
| J_anonymous m r :
    has_auth = true -> first_method m = VStr "anonymous" ->
    e_auth e (AnonymousRequest (he_realm m) (he_authid m) (he_authextra m)) = Accept r ->
    justified cr has_auth past e (Hello m) (he_realm m) (resp_authid r) (resp_authrole r)
| J_cryptosign e0 m0 c0 a r extra k pub signed :
    has_auth = true -> latest challenge_of past = Some (e0, m0, c0) -> first_method m0 = VStr "cryptosign" ->
    he_authextra m0 = Some extra -> sget "pubkey" extra = Some k -> unhexlify k = Ok pub ->
    e_auth e0 (CryptoSignRequest (he_realm m0) (he_authid m0) (he_authextra m0) k) = Accept r ->
    ed_signed cr pub (au_signature a) signed ->
    justified cr has_auth past e (Authenticate a) (he_realm m0) (resp_authid r) (resp_authrole r)
| J_wampcra e0 m0 c0 a authid authrole secret salted text :
    has_auth = true -> latest challenge_of past = Some (e0, m0, c0) -> first_method m0 = VStr "wampcra" ->
    e_auth e0 (WAMPCRARequest (he_realm m0) (he_authid m0) (he_authextra m0))
      = Accept (WAMPCRAResponse authid authrole secret salted) ->
    sget "challenge" (ch_extra c0) = Some (VStr text) ->
    b64decode_str (au_signature a) = Ok (hmac_sha256 cr (encode_str secret) (encode_str text)) ->
    justified cr has_auth past e (Authenticate a) (he_realm m0) authid authrole
| J_ticket e0 m0 c0 a r :
    has_auth = true -> latest challenge_of past = Some (e0, m0, c0) -> first_method m0 = VStr "ticket" ->
    e_auth e (TicketRequest (he_realm m0) (he_authid m0) (he_authextra m0) (au_signature a)) = Accept r ->
    justified cr has_auth past e (Authenticate a) (he_realm m0) (resp_authid r) (resp_authrole r).

(** The established session: realm of the HELLO that started the successful handshake, and the WELCOME. *)
Fixpoint established (h : list aentry) : option (string * welcome) :=
  match h with
  | [] => None
  | e :: h' =>
      match welcome_of e, ae_msg e, latest challenge_of h' with
      | Some w, Hello m, _ => Some (he_realm m, w)
      | Some w, Authenticate _, Some (_, m0, _) => Some (he_realm m0, w)
      | _, _, _ => established h'
      end
  end.
