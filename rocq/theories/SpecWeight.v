(** * SpecWeight: how much memory a value takes.  Definitions only. *)
From Coq Require Import String Ascii List ZArith Bool.
From Verif Require Import PyBase Encoding SpecFormat.
Import ListNotations.
Local Open Scope Z_scope.

(** One for every value, element, key and dict entry, and one for every octet of a text, a byte string and an integer (beyond its first). *)
Fixpoint weight (v : val) : Z :=
  match v with
  | VInt z => 1 + Z.log2 (Z.abs z) / 8
  | VStr s => 1 + count (encode_str s)
  | VBytes b => 1 + count b
  | VList l => 1 + (fix sum l := match l with [] => 0 | x :: r => weight x + sum r end) l
  | VDict d => 1 + (fix sum d := match d with [] => 0 | (k, x) :: r => weight k + weight x + sum r end) d
  | VNone | VBool _ | VFloat _ | VOther _ _ => 1
  end.
(** Arguments that may be missing. *)
Definition args_weight (a : option (list val)) : Z := match a with Some a => weight (VList a) | None => 0 end.
Definition kwargs_weight (k : option dict) : Z := match k with Some k => weight (VDict k) | None => 0 end.
