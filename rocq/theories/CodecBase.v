(** * CodecBase: floats and dict keys as the wire codecs see them.  Definitions only.

    Part of the Python runtime, not of /repo. *)
From Coq Require Import String Ascii List ZArith Bool.
From Verif Require Import PyBase Rawsocket Encoding Utf8.
Import ListNotations.
Local Open Scope Z_scope.

Definition bytes_eqb (a b : bytes) : bool := if list_eq_dec ascii_dec a b then true else false.

(** [a == b] for floats: NaN differs from everything, 0.0 == -0.0. *)
Definition is_nan (f : Z) : bool := (f_expo f =? 2047) && negb (f_mant f =? 0).
Definition is_zero (f : Z) : bool := (f_expo f =? 0) && (f_mant f =? 0).
Definition float_eqb (f g : Z) : bool := negb (is_nan f) && negb (is_nan g) && ((f =? g) || is_zero f && is_zero g).

(** [a == b] for hashable values, as used by dict lookup.  (dict lookup also accepts the identical NaN object; keys that
    come out of a decoder are new objects.) *)
Definition key_eqb (a b : val) : bool :=
  match a, b with
  | VStr s, VStr t => String.eqb s t
  | VBytes s, VBytes t => bytes_eqb s t
  | VNone, VNone => true
  | VFloat f, VFloat g => float_eqb f g
  | VInt x, _ => py_eq_int b x
  | VBool x, _ => py_eq_int b (if x then 1 else 0)
  | VFloat f, VInt x => float_eq_int f x
  | VFloat f, VBool x => float_eq_int f (if x then 1 else 0)
  | _, _ => false
  end.
(** [d[k] = v] *)
Definition vset (k v : val) (d : dict) : dict := dset key_eqb k v d.

(** A binary16 or binary32 number, given by the widths of its exponent and mantissa, as binary64. *)
Definition widen (ebits mbits : Z) (z : Z) : Z :=
  let s := z / 2 ^ (ebits + mbits) in
  let e := (z / 2 ^ mbits) mod 2 ^ ebits in
  let m := z mod 2 ^ mbits in
  let bias := 2 ^ (ebits - 1) - 1 in
  s * 2 ^ 63 +
  (if e =? 2 ^ ebits - 1 then 2047 * 2 ^ 52 + m * 2 ^ (52 - mbits)
   else if e =? 0 then
     if m =? 0 then 0
     else let k := Z.log2 m in (k + 1 - bias - mbits + 1023) * 2 ^ 52 + (m - 2 ^ k) * 2 ^ (52 - k)
   else (e - bias + 1023) * 2 ^ 52 + m * 2 ^ (52 - mbits)).
Definition NAN : Z := 2047 * 2 ^ 52 + 2 ^ 51.
Definition INF : Z := 2047 * 2 ^ 52.
