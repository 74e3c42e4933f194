(** * SpecHostileRest: what happens once nobody sends any more, in a network with hostile clients.  Definitions only. *)
From Coq Require Import List ZArith Bool.
From Verif Require Import PyBase Messages Network ByteNetwork HostileNetwork.
Import ListNotations.

(** Step [a] takes an item from a link: the router processes one, or a client receives one. *)
Definition h_has_work (n : bnet) (a : haction) : Prop :=
  match a with
  | HAct (WRoute s) => exists cl, zget s (bn_clients n) = Some cl /\ bc_up cl <> []
  | HAct (WDeliver s) => exists cl, zget s (bn_clients n) = Some cl /\ bc_down cl <> []
  | _ => False
  end.
(** After [acts], every step of [more] takes an item from a link; nobody sends anything. *)
Definition h_busy (acts more : list haction) : Prop :=
  forall b a c, more = b ++ a :: c -> h_has_work (fst (hrun (acts ++ b))) a.
(** No link has an item left. *)
Definition h_at_rest (n : bnet) : Prop := forall a, ~ h_has_work n a.

(** Items on their way to the router, and to the clients. *)
Definition h_to_router (n : bnet) : nat := list_sum (map (fun e => length (bc_up (snd e))) (bn_clients n)).
Definition h_to_clients (n : bnet) : nat := list_sum (map (fun e => length (bc_down (snd e))) (bn_clients n)).
