(** * SpecReorder: sends and arrivals in another order.  Definitions only. *)
From Coq Require Import List ZArith Bool.
From Verif Require Import PyBase Messages SpecSession SpecAlike.
Import ListNotations.
Local Open Scope Z_scope.

(** The request a message makes or answers: its kind and its id. *)
Definition request_of (m : message) : option (kind * Z) :=
  match snd (fst (shape m)) with (Request k, r) :: _ => Some (k, r) | _ => None end.
(** The two messages are not about one and the same request. *)
Definition unrelated (a b : message) : Prop := forall q, request_of a = Some q -> request_of b <> Some q.

(** Two orders of the same sends and arrivals: neighbours change places, one of them sent and the other received, when they are not about the
    same request.  The order of the sends among themselves stays, and that of the arrivals. *)
Inductive reordered : list op -> list op -> Prop :=
| R_same ops : reordered ops ops
| R_swap pre a b post : unrelated a b -> reordered (pre ++ Snd a :: Rcv b :: post) (pre ++ Rcv b :: Snd a :: post)
| R_back ops ops' : reordered ops ops' -> reordered ops' ops
| R_then ops1 ops2 ops3 : reordered ops1 ops2 -> reordered ops2 ops3 -> reordered ops1 ops3.

Definition sent (ops : list op) : list message := flat_map (fun o => match o with Snd m => [m] | Rcv _ => [] end) ops.
Definition arrived (ops : list op) : list message := flat_map (fun o => match o with Rcv m => [m] | Snd _ => [] end) ops.
(** No send is about the same request as any arrival. *)
Definition all_unrelated (ops : list op) : Prop := forall a b, In a (sent ops) -> In b (arrived ops) -> unrelated a b.
