(** * Handshake: a joiner and an acceptor exchanging bytes.  Definitions only.

    This is the loop a client and a router run around joiner.py and acceptor.py (README and the tests do the same):
    send the HELLO, hand every received frame to [receive], and send back what it returns. *)
From Coq Require Import String Ascii List ZArith Bool.
From Verif Require Import PyBase Messages Parse Serializer Encoding Auth Joiner Acceptor.
Import ListNotations.
Local Open Scope Z_scope.

(** [e1], [e2]: the router's environment at its first and second frame. *)
Definition handshake (cr : crypto) (c : codec) (authn : challenge -> res authenticate) (e1 e2 : env)
    (roles : option dict) (j : joiner) (a : acceptor) : joiner * acceptor * res unit :=
  let '(j1, r1) := send_hello c j roles in
  match r1 with
  | Raise x => (j1, a, Raise x)
  | Ok b1 =>
      let '(a1, r2) := acceptor_receive cr c e1 a b1 in
      match r2 with
      | Raise x => (j1, a1, Raise x)
      | Ok (b2, _) =>
          let '(j2, r3) := joiner_receive c authn j1 b2 in
          match r3 with
          | Raise x => (j2, a1, Raise x)
          | Ok None => (j2, a1, Ok tt)
          | Ok (Some b3) =>
              let '(a2, r4) := acceptor_receive cr c e2 a1 b3 in
              match r4 with
              | Raise x => (j2, a2, Raise x)
              | Ok (b4, _) =>
                  let '(j3, r5) := joiner_receive c authn j2 b4 in
                  (j3, a2, match r5 with Ok _ => Ok tt | Raise x => Raise x end)
              end
          end
      end
  end.
