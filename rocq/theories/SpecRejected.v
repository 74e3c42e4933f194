(** * SpecRejected: two objects that nobody can tell apart by using them. *)
From Coq Require Import List.
From Verif Require Import PyBase Messages Auth Serializer Joiner Acceptor.
Import ListNotations.

(** What an acceptor answers to messages received one after the other, each with its environment, and the acceptor afterwards. *)
Fixpoint answers (cr : crypto) (a : acceptor) (ops : list (env * message)) : list (res (option message)) * acceptor :=
  match ops with
  | [] => ([], a)
  | (e, m) :: ops' =>
      let (a', r) := acceptor_receive_message cr e a m in
      let (rs, z) := answers cr a' ops' in (r :: rs, z)
  end.
(** The same for octets. *)
Fixpoint replies (cr : crypto) (c : codec) (a : acceptor) (ops : list (env * bytes)) : list (res (bytes * bool)) * acceptor :=
  match ops with
  | [] => ([], a)
  | (e, b) :: ops' =>
      let (a', r) := acceptor_receive cr c e a b in
      let (rs, z) := replies cr c a' ops' in (r :: rs, z)
  end.
(** Whatever [a] and [a'] are given, they answer the same, and then say the same about the session. *)
Definition indistinguishable (cr : crypto) (a a' : acceptor) : Prop :=
  (forall ops, let (rs, z) := answers cr a ops in let (rs', z') := answers cr a' ops in
     rs' = rs /\ is_aborted z' = is_aborted z /\ acceptor_details z' = acceptor_details z) /\
  (forall c ops, let (rs, z) := replies cr c a ops in let (rs', z') := replies cr c a' ops in
     rs' = rs /\ is_aborted z' = is_aborted z /\ acceptor_details z' = acceptor_details z).
