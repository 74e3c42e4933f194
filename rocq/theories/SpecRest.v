(** * SpecRest: what happens once the clients fall silent.  Definitions only. *)
From Coq Require Import List ZArith Bool.
From Verif Require Import PyBase Messages Network SpecNetwork.
Import ListNotations.

(** Step [a] takes a message from a link: the router processes one, or a client receives one. *)
Definition has_work (n : net) (a : action) : Prop :=
  match a with
  | ARoute s => exists cl, zget s (nt_clients n) = Some cl /\ cl_up cl <> []
  | ADeliver s => exists cl, zget s (nt_clients n) = Some cl /\ cl_down cl <> []
  | _ => False
  end.
(** After [acts], every step of [more] takes a message from a link; the clients send nothing. *)
Definition busy (acts more : list action) : Prop :=
  forall b a c, more = b ++ a :: c -> has_work (fst (nrun (acts ++ b))) a.
(** No link has a message left. *)
Definition at_rest (n : net) : Prop := forall a, ~ has_work n a.

(** Messages on their way to the router, and to the clients. *)
Definition to_router (n : net) : nat := list_sum (map (fun e => length (cl_up (snd e))) (nt_clients n)).
Definition to_clients (n : net) : nat := list_sum (map (fun e => length (cl_down (snd e))) (nt_clients n)).
