(** * PropsJoiner: theorems about joiner.py (C30-C33).

    [jrun] feeds an arbitrary list of operations (send_hello calls and received messages, each received message with
    whatever the user's authenticator would answer to it at that time) to a fresh joiner; it yields the joiner and
    the history, newest first, of operations with whether they returned normally. *)
From Coq Require Import String Ascii List ZArith Bool.
From Verif Require Import PyBase Messages Parse Serializer SpecHistory Auth Joiner SpecJoiner JoinerFacts SerializerFacts.
Import ListNotations.
Local Open Scope Z_scope.

(** ** C30 *)
Theorem C30_details_iff : forall c realm method authid extra ops d,
  let (j, h) := jrun c realm method authid extra ops in
  joiner_details j = Ok d <->
  exists w, latest accepted_welcome h = Some w /\ d = mkDetails (we_session w) realm (we_authid w) (we_authrole w).
Proof.
  intros. pose proof (details_iff c realm method authid extra ops d) as H. destruct (jrun _ _ _ _ _ _). exact H.
Qed.
Print Assumptions C30_details_iff.

Theorem C30_no_details : forall c realm method authid extra ops,
  let (j, h) := jrun c realm method authid extra ops in
  latest accepted_welcome h = None -> exists e, joiner_details j = Raise (ValueError [e]).
Proof.
  intros. pose proof (no_details c realm method authid extra ops) as H. destruct (jrun _ _ _ _ _ _). exact H.
Qed.
Print Assumptions C30_no_details.

Theorem C30_welcome_iff : forall c realm method authid extra ops authn w,
  let (j, h) := jrun c realm method authid extra ops in
  (awaiting_welcome h = true ->
     snd (joiner_receive_message authn j (Welcome w)) = Ok None /\
     joiner_details (fst (joiner_receive_message authn j (Welcome w)))
       = Ok (mkDetails (we_session w) realm (we_authid w) (we_authrole w))) /\
  (awaiting_welcome h = false ->
     exists e, joiner_receive_message authn j (Welcome w) = (j, Raise (ValueError [e]))).
Proof.
  intros. pose proof (welcome_iff c realm method authid extra ops authn w) as H. destruct (jrun _ _ _ _ _ _). exact H.
Qed.
Print Assumptions C30_welcome_iff.

(** The HELLO a joiner sends names its realm, authid, auth method and extra; default roles if none are given. *)
Theorem C30_hello_sent : forall c realm method authid extra ops roles,
  let (j, h) := jrun c realm method authid extra ops in
  snd (send_hello c j roles) =
  serialize c (Hello (mkHello realm (match roles with Some r => r | None => CLIENT_ROLES end) (Some authid)
                               (Some [VStr method]) (Some extra))).
Proof.
  intros. pose proof (hello_sent_fields c realm method authid extra ops roles) as H. destruct (jrun _ _ _ _ _ _). exact H.
Qed.
Print Assumptions C30_hello_sent.

(** On the wire: [receive] acts as [receive_message] on the decoded message; undecodable bytes change nothing. *)
Theorem C30_receive_bytes : forall c authn j b m, deserialize c b = Ok m ->
  fst (joiner_receive c authn j b) = fst (joiner_receive_message authn j m) /\
  (forall e, snd (joiner_receive_message authn j m) = Raise e -> snd (joiner_receive c authn j b) = Raise e) /\
  (snd (joiner_receive_message authn j m) = Ok None -> snd (joiner_receive c authn j b) = Ok None) /\
  (forall a, snd (joiner_receive_message authn j m) = Ok (Some a) ->
     snd (joiner_receive c authn j b) = (let! x := serialize c a in Ok (Some x))).
Proof. exact joiner_receive_bytes. Qed.
Print Assumptions C30_receive_bytes.

Theorem C30_receive_undecodable : forall c authn j b e,
  deserialize c b = Raise e -> joiner_receive c authn j b = (j, Raise e).
Proof. exact joiner_receive_undecodable. Qed.
Print Assumptions C30_receive_undecodable.

(** Any other message is refused without effect, whatever the state. *)
Theorem C30_others_refused : forall authn j m,
  match m with Welcome _ | Challenge _ | Abort _ => False | _ => True end ->
  exists e, joiner_receive_message authn j m = (j, Raise (ValueError [e])).
Proof. exact joiner_others_refused. Qed.
Print Assumptions C30_others_refused.

Definition no_auth : challenge -> res authenticate := fun _ => Raise NotImplementedError.
Definition sig_auth : challenge -> res authenticate := fun _ => Ok (mkAuthenticate "sig" []).
Definition w1 := mkWelcome (PyInt 7) [] (Some "joe"%string) (Some "user"%string) None [].
Definition w2 := mkWelcome (PyInt 8) [] (Some "eve"%string) (Some "admin"%string) None [].
Definition chal := mkChallenge "ticket" [].
Definition c0 : codec := {| dumps := fun _ => Ok []; loads := fun _ => Raise (CodecError "") |}.

Example C30_ex :
  let (j, h) := jrun c0 "realm1" "ticket" "joe" []
                  [JRecv no_auth (Welcome w1); JHello None; JRecv sig_auth (Challenge chal); JRecv no_auth (Welcome w2);
                   JRecv no_auth (Welcome w1)] in
  map snd h = [false; true; true; true; false] /\ joiner_details j = Ok (mkDetails (PyInt 8) "realm1" (Some "eve"%string) (Some "admin"%string)).
Proof. split; reflexivity. Qed.

(** ** C31 *)
Theorem C31_challenge_iff : forall c realm method authid extra ops authn m,
  let (j, h) := jrun c realm method authid extra ops in
  (awaiting_challenge h = true ->
     snd (joiner_receive_message authn j (Challenge m)) = (let! a := authn m in Ok (Some (Authenticate a)))) /\
  (awaiting_challenge h = false ->
     exists e, joiner_receive_message authn j (Challenge m) = (j, Raise (ValueError [e]))).
Proof.
  intros. pose proof (challenge_iff c realm method authid extra ops authn m) as H. destruct (jrun _ _ _ _ _ _). exact H.
Qed.
Print Assumptions C31_challenge_iff.

Theorem C31_at_most_once_per_hello : forall c realm method authid extra ops,
  let h := snd (jrun c realm method authid extra ops) in
  (times challenge_answered h <= times hello_sent h)%nat.
Proof. exact one_answer_per_hello. Qed.
Print Assumptions C31_at_most_once_per_hello.

(** If the authenticator raises, the joiner is unchanged and the exception reaches the caller. *)
Theorem C31_authenticator_raises : forall c realm method authid extra ops authn m e,
  let (j, h) := jrun c realm method authid extra ops in
  awaiting_challenge h = true -> authn m = Raise e -> joiner_receive_message authn j (Challenge m) = (j, Raise e).
Proof.
  intros. pose proof (challenge_authn_raises c realm method authid extra ops authn m e) as H.
  destruct (jrun _ _ _ _ _ _). exact H.
Qed.
Print Assumptions C31_authenticator_raises.

Example C31_ex :
  let h ops := map snd (snd (jrun c0 "realm1" "ticket" "joe" [] ops)) in
  h [JHello None; JRecv no_auth (Challenge chal); JRecv sig_auth (Challenge chal); JRecv sig_auth (Challenge chal)]
    = [false; true; false; true] /\
  h [JHello None; JRecv sig_auth (Challenge chal); JHello None; JRecv sig_auth (Challenge chal)] = [true; true; true; true].
Proof. split; reflexivity. Qed.

(** ** C32 *)
Theorem C32_abort_raises : forall authn j m,
  joiner_receive_message authn j (Abort m) = (j, Raise (ApplicationError (ab_reason m) (ab_args m) (ab_kwargs m))).
Proof. exact abort_raises. Qed.
Print Assumptions C32_abort_raises.

(** The same for every octet string that decodes to an ABORT. *)
Theorem C32_abort_bytes : forall c authn j b m, deserialize c b = Ok (Abort m) ->
  joiner_receive c authn j b = (j, Raise (ApplicationError (ab_reason m) (ab_args m) (ab_kwargs m))).
Proof. exact abort_bytes_raise. Qed.
Print Assumptions C32_abort_bytes.

Example C32_ex :
  let c := mkCodec (fun _ => Ok []) (fun _ => Ok (VList [VInt 3; VDict []; VStr "wamp.error.x"; VList [VInt 5]])) in
  deserialize c ["x"%char] = Ok (Abort (mkAbort [] "wamp.error.x" (Some [VInt 5]) None)).
Proof. reflexivity. Qed.

(** ** C33: ABORT is not final. *)
Theorem C33_abort_final_refuted : exists c realm method authid extra ops authn ab w,
  let j := fst (jrun c realm method authid extra (ops ++ [JRecv authn (Abort ab)])) in
  joiner_receive_message authn j (Welcome w) =
    (fst (joiner_receive_message authn j (Welcome w)), Ok None) /\
  exists d, joiner_details (fst (joiner_receive_message authn j (Welcome w))) = Ok d.
Proof. exact abort_not_final. Qed.
Print Assumptions C33_abort_final_refuted.

(** More: ABORT never changes whether a WELCOME is acceptable. *)
Theorem C33_abort_no_effect : forall c realm method authid extra ops authn ab,
  awaiting_welcome (snd (jrun c realm method authid extra (ops ++ [JRecv authn (Abort ab)]))) =
  awaiting_welcome (snd (jrun c realm method authid extra ops)).
Proof. exact abort_no_effect. Qed.
Print Assumptions C33_abort_no_effect.

(** Missing: ABORTs that arrive while a WELCOME is awaited. *)
Theorem C33_abort_final_partial : forall c realm method authid extra ops authn ab ops',
  awaiting_welcome (snd (jrun c realm method authid extra ops)) = false ->
  (forall roles, ~ In (JHello roles) ops') ->
  awaiting_welcome (snd (jrun c realm method authid extra ((ops ++ [JRecv authn (Abort ab)]) ++ ops'))) = false.
Proof. exact abort_final_partial. Qed.
Print Assumptions C33_abort_final_partial.

Example C33_ex : awaiting_welcome (snd (jrun c0 "r" "ticket" "joe" [] [JHello None; JRecv no_auth (Welcome w1)])) = false.
Proof. reflexivity. Qed.
