(** * IdGen: wampproto/idgen.py.  Definitions only.

    [generate_session_id] (idgen.py:6-7) is [random.randint(1, 2**53)]; callers take its result as a
    parameter, constrained to 1..2**53 where it matters. *)
From Coq Require Import ZArith List.
Import ListNotations.
Local Open Scope Z_scope.

(** idgen.py:3 *)
Definition ID_MAX := 2 ^ 53.

(** idgen.py:10-13: the generator's state is [self.id]. *)
Definition idgen := Z.
Definition idgen_init : idgen := 0.

(** idgen.py:15-20: (new state, returned id). *)
Definition next_id (g : idgen) : idgen * Z :=
  let id := if g =? ID_MAX then 0 else g in
  let id := id + 1 in
  (id, id).

(** [n] successive calls of [next()] on a generator in state [g]: the ids returned, in order. *)
Fixpoint next_ids (n : nat) (g : idgen) : list Z :=
  match n with
  | O => []
  | S n' => let (g', i) := next_id g in i :: next_ids n' g'
  end.
