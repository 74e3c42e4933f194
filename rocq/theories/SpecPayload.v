(** * SpecPayload: which values are payloads.  Definitions only.

    A payload is [[]], [[args]] or [[args, kwargs]] with a list [args] and a dict [kwargs].  Python's [len] and [[]] do not tell a
    list from other containers, so an empty str, bytes or dict is a payload as well, and so is a dict with the keys 0 and 1. *)
From Coq Require Import String Ascii List ZArith Bool.
From Verif Require Import PyBase Encoding SpecFormat SpecJson.
Import ListNotations.
Local Open Scope Z_scope.

(** The length of a value: of a str the number of its characters. *)
Inductive size : val -> Z -> Prop :=
| size_list l : size (VList l) (count l)
| size_dict d : size (VDict d) (count d)
| size_str ps s : str_of ps s -> size (VStr s) (count ps)
| size_bytes b : size (VBytes b) (count b).
(** [v[i]] is [x], in a list or a dict. *)
Inductive entry (i : Z) (x : val) : val -> Prop :=
| entry_list l r : count l = i -> entry i x (VList (l ++ x :: r))
| entry_dict d k r : same_key k (VInt i) -> (forall k' y, In (k', y) d -> ~ same_key k' (VInt i)) -> entry i x (VDict (d ++ (k, x) :: r)).

Inductive payload (v : val) : option (list val) -> option dict -> Prop :=
| payload_none : size v 0 -> payload v None None
| payload_args a : size v 1 -> entry 0 (VList a) v -> payload v (Some a) None
| payload_both a k : size v 2 -> entry 0 (VList a) v -> entry 1 (VDict k) v -> payload v (Some a) (Some k).
(** The three ways of not being one. *)
Definition too_long (v : val) : Prop := exists n, size v n /\ 2 < n.
(** A dict of one or two entries in which 0 or, of two entries, 1 is not a key. *)
Definition lacks_key (v : val) : Prop :=
  exists d i, v = VDict d /\ 0 <= i < count d /\ count d <= 2 /\ forall x, ~ entry i x v.
