(** * SpecRepr: how floats should be written as text.  Definitions only.

    Python's [float.__repr__] promises the shortest digits that read back as the same float and, of these, those nearest
    to it.  The numerals and what they read back as are those of SpecJson. *)
From Coq Require Import List ZArith Bool.
From Verif Require Import SpecFormat SpecJson.
Import ListNotations.
Local Open Scope Z_scope.

(** The numeral [t] writes the digits of [m], followed or preceded by zeros, for [m] times ten to the [x]. *)
Definition writes (minus : bool) (m x : Z) (t : list Z) : Prop :=
  exists s i d f p e j, sign minus s /\ whole i /\ fraction d f /\ power p e /\ t = s ++ i ++ f ++ e /\
    0 <= j /\ decimal (i ++ d) = m * 10 ^ j /\ x = p - count d + j.
(** No digits that read back as [g] are fewer than those of [m]. *)
Definition fewest (m g : Z) : Prop := forall n m' x', 0 <= n -> 0 <= m' < 10 ^ n -> nearest_decimal m' x' g -> m < 10 ^ n.
(** How far [m] times ten to the [x] is from [g], in units of [10^-K * 2^-1074]. *)
Definition distance (K m x g : Z) : Z := Z.abs (m * 10 ^ (x + K) * 2 ^ 1074 - magnitude 11 52 g * 10 ^ K).
(** No digits that read back as [g], and are not more than those of [m], are nearer to [g]. *)
Definition closest (m x g : Z) : Prop := forall n m' x' K, 10 ^ (n - 1) <= m < 10 ^ n -> 0 <= m' < 10 ^ n -> nearest_decimal m' x' g ->
  0 <= K -> 0 <= x + K -> 0 <= x' + K -> distance K m x g <= distance K m' x' g.
