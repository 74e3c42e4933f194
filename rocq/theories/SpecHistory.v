(** * SpecHistory: vocabulary for histories (newest event first). *)
From Coq Require Import List Bool.
Import ListNotations.

(** [opens] happened and [closes] did not happen since. *)
Fixpoint since {E} (opens closes : E -> bool) (h : list E) : bool :=
  match h with
  | [] => false
  | e :: h' => if opens e then true else if closes e then false else since opens closes h'
  end.

(** How often something happened. *)
Definition times {E} (p : E -> bool) (h : list E) : nat := length (filter p h).

(** The most recent value something produced. *)
Fixpoint latest {E A} (f : E -> option A) (h : list E) : option A :=
  match h with
  | [] => None
  | e :: h' => match f e with Some a => Some a | None => latest f h' end
  end.
