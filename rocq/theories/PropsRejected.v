(** * PropsRejected: C130, a rejected message changes nothing. *)
From Coq Require Import String Ascii List ZArith Bool.
From Verif Require Import PyBase Messages IdGen Parse Serializer Encoding Auth MsgPack Cbor Joiner Acceptor SpecHistory SpecAcceptor AcceptorFacts SpecRejected Broker Dealer SpecDealer DealerRun DealerFacts
  RejectedFacts ToyCrypto.
Import ListNotations.
Local Open Scope string_scope.
Local Open Scope Z_scope.
Local Open Scope list_scope.

(** ** Acceptor *)
Theorem C130_acceptor : forall cr roles has_auth sid ops e msg x, let a := fst (arun cr roles has_auth sid ops) in
  snd (acceptor_receive_message cr e a msg) = Raise x -> indistinguishable cr a (fst (acceptor_receive_message cr e a msg)).
Proof. exact acceptor_rejected. Qed.
Print Assumptions C130_acceptor.
(** Nor does a HELLO that the authenticator refuses (which is answered by ABORT). *)
Theorem C130_hello_refused : forall cr roles has_auth sid ops e m ab, let a := fst (arun cr roles has_auth sid ops) in
  snd (acceptor_receive_message cr e a (Hello m)) = Ok (Some (Abort ab)) -> indistinguishable cr a (fst (acceptor_receive_message cr e a (Hello m))).
Proof. exact acceptor_hello_refused. Qed.
Print Assumptions C130_hello_refused.
(** [receive]: octets that are no message, or a message that is rejected. *)
Theorem C130_acceptor_bytes_partial : forall cr roles has_auth sid ops c e b, let a := fst (arun cr roles has_auth sid ops) in
  (exists x, deserialize c b = Raise x) \/ (exists m x, deserialize c b = Ok m /\ snd (acceptor_receive_message cr e a m) = Raise x) ->
  (exists x, snd (acceptor_receive cr c e a b) = Raise x) /\ indistinguishable cr a (fst (acceptor_receive cr c e a b)).
Proof. exact acceptor_bytes_rejected. Qed.
Print Assumptions C130_acceptor_bytes_partial.

(** Missing: answers that cannot be serialized.  Here the authenticator's authid has a lone surrogate, the WELCOME cannot be
    written in CBOR, [receive] raises, and nothing was sent; but the session is established. *)
Definition lone : string := String (ascii_of_nat 237) (String (ascii_of_nat 160) (String (ascii_of_nat 128) EmptyString)).
Definition ex_env (aid : string) : env := mkEnv (fun _ => Accept (PlainResponse aid "anonymous")) [] "" (fun _ => Ok []).
Definition ex_hello : message := Hello (mkHello "realm1" [(VStr "caller", VDict [])] (Some "joe") (Some [VStr "anonymous"]) (Some [])).
Definition ex_octets : bytes := match serialize cbor ex_hello with Ok b => b | Raise _ => [] end.
Theorem C130_acceptor_bytes_refuted : exists e b d,
  let a := acceptor_init None true 7 in let a' := fst (acceptor_receive toy cbor e a b) in
  (exists x, snd (acceptor_receive toy cbor e a b) = Raise x) /\ (exists x, acceptor_details a = Raise x) /\ acceptor_details a' = Ok d /\
  (exists r, snd (acceptor_receive toy cbor (ex_env "joe") a b) = Ok r) /\ exists x, snd (acceptor_receive toy cbor (ex_env "joe") a' b) = Raise x.
Proof.
  exists (ex_env lone), ex_octets. eexists. cbv zeta. split; [vm_compute; eexists; reflexivity|]. split; [vm_compute; eexists; reflexivity|].
  split; [vm_compute; reflexivity|]. split; vm_compute; eexists; reflexivity.
Qed.
Print Assumptions C130_acceptor_bytes_refuted.

(** ** Joiner *)
Theorem C130_joiner : forall authn j m x, snd (joiner_receive_message authn j m) = Raise x -> fst (joiner_receive_message authn j m) = j.
Proof. exact joiner_rejected. Qed.
Print Assumptions C130_joiner.
(** But a [send_hello] that raises counts as sent (the realm cannot be written in CBOR): the joiner then accepts a WELCOME. *)
Theorem C130_send_hello_refuted : exists j w d authn, let j' := fst (send_hello cbor j None) in
  (exists x, snd (send_hello cbor j None) = Raise x) /\ (exists x, snd (joiner_receive_message authn j (Welcome w)) = Raise x) /\
  joiner_details (fst (joiner_receive_message authn j' (Welcome w))) = Ok d.
Proof.
  exists (joiner_init lone "anonymous" "" []), (mkWelcome (PyInt 1) [] None None None []). eexists. exists (fun _ => Raise KeyError).
  cbv zeta. split; [vm_compute; eexists; reflexivity|]. split; [vm_compute; eexists; reflexivity|]. vm_compute. reflexivity.
Qed.
Print Assumptions C130_send_hello_refuted.
(** And so does an answer to a CHALLENGE that cannot be written: the CHALLENGE is not accepted again. *)
Definition ex_challenge : bytes := match serialize cbor (Challenge (mkChallenge "ticket" [])) with Ok b => b | Raise _ => [] end.
Theorem C130_joiner_bytes_refuted : exists j b, let j' := fst (joiner_receive cbor (fun _ => Ok (mkAuthenticate lone [])) j b) in
  (exists x, snd (joiner_receive cbor (fun _ => Ok (mkAuthenticate lone [])) j b) = Raise x) /\
  (exists r, snd (joiner_receive cbor (fun _ => Ok (mkAuthenticate "secret" [])) j b) = Ok (Some r)) /\
  exists x, snd (joiner_receive cbor (fun _ => Ok (mkAuthenticate "secret" [])) j' b) = Raise x.
Proof.
  exists (fst (send_hello cbor (joiner_init "realm1" "ticket" "joe" []) None)), ex_challenge. cbv zeta.
  split; [vm_compute; eexists; reflexivity|]. split; vm_compute; eexists; reflexivity.
Qed.
Print Assumptions C130_joiner_bytes_refuted.

(** ** Dealer *)
Theorem C130_dealer_partial : forall d s m x, snd (d_receive_message d s m) = Raise (ValueError x) -> fst (d_receive_message d s m) = d.
Proof. exact dealer_rejected. Qed.
Print Assumptions C130_dealer_partial.
Theorem C130_dealer_membership : forall d, (forall det x, snd (d_add_session d det) = Raise (ValueError x) -> fst (d_add_session d det) = d) /\
  (forall s x, snd (d_remove_session d s) = Raise (ValueError x) -> fst (d_remove_session d s) = d).
Proof. exact dealer_membership_rejected. Qed.
Print Assumptions C130_dealer_membership.
(** Missing: KeyErrors (C65).  A YIELD raises one, and is then no longer answered the same way. *)
Definition ex_det (z : Z) : details := mkDetails (PyInt z) "r" None None.
Definition ex_call (progress : bool) : dop := DMsg 1 (Call (mkCall (PyInt 1) "p" None None (if progress then [(VStr "progress", VBool true)] else []) no_payload)).
Definition ex_yield (i : Z) : dop := DMsg 2 (Yield (mkYield (PyInt i) None None [] no_payload)).
Theorem C130_dealer_refuted : exists ops o x, let d := fst (drun ops) in let d' := fst (drun (ops ++ [o])) in
  danswer d o = DExn KeyError /\ danswer d' o = DExn (ValueError x).
Proof.
  exists [DJoin (ex_det 1); DJoin (ex_det 2); DMsg 2 (Register (mkRegister (PyInt 1) "p" [])); ex_call true; ex_call false; ex_yield 3], (ex_yield 2).
  eexists. cbv zeta. split; vm_compute; reflexivity.
Qed.
Print Assumptions C130_dealer_refuted.

(** A HELLO for Cryptosign without key is rejected, then the client logs in with a ticket. *)
Definition ex_bad : message := Hello (mkHello "realm1" [] (Some "joe") (Some [VStr "cryptosign"]) (Some [])).
Definition ex_good : message := Hello (mkHello "realm1" [] (Some "joe") (Some [VStr "ticket"]) (Some [])).
Example C130_instance :
  let a := acceptor_init None true 7 in let a' := fst (acceptor_receive_message toy (ex_env "joe") a ex_bad) in
  (exists x, snd (acceptor_receive_message toy (ex_env "joe") a ex_bad) = Raise x) /\ a' <> a /\
  exists w, fst (answers toy a' [(ex_env "joe", ex_good); (ex_env "joe", Authenticate (mkAuthenticate "t" []))]) =
    [Ok (Some (Challenge (mkChallenge "ticket" []))); Ok (Some (Welcome w))].
Proof. cbv zeta. split; [vm_compute; eexists; reflexivity|]. split; [vm_compute; discriminate|]. vm_compute. eexists. reflexivity. Qed.
