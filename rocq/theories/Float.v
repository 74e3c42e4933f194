(** * Float: decimal text of binary64 floats, [float.__repr__] and [float(s)].  Definitions only.

    Part of the Python runtime, not of /repo (Python/dtoa.c, Python/pystrtod.c). *)
From Coq Require Import String Ascii List ZArith Bool.
From Verif Require Import PyBase Rawsocket Encoding Utf8 CodecBase MsgPack Json.
Import ListNotations.
Local Open Scope Z_scope.

(** ** Rounding.  [scale2 e n d] is the fraction [n/d / 2^e]. *)
Definition scale2 (e n d : Z) : Z * Z := if 0 <=? e then (n, d * 2 ^ e) else (n * 2 ^ (- e), d).
(** [2^e <= n/d] *)
Definition pow2_le (e n d : Z) : bool := let (a, b) := scale2 e n d in b <=? a.
(** floor(log2(n/d)) *)
Definition flog2 (n d : Z) : Z := let e := Z.log2 n - Z.log2 d in if pow2_le e n d then e else e - 1.
(** Nearest integer to [n/d], ties to even. *)
Definition round_even (n d : Z) : Z :=
  let q := n / d in
  let r := n mod d in
  if 2 * r <? d then q else if d <? 2 * r then q + 1 else if Z.even q then q else q + 1.
(** The float nearest to the fraction [n/d >= 0] (ties to even, overflow to infinity), as bits. *)
Definition round_q (n d : Z) : Z :=
  if n =? 0 then 0
  else
    let e := Z.max (flog2 n d - 52) (-1074) in
    let (a, b) := scale2 e n d in
    Z.min INF ((e + 1074) * 2 ^ 52 + round_even a b).

(** The float nearest to [m * 10^x]. *)
Definition dec_fraction (m x : Z) : Z * Z := if 0 <=? x then (m * 10 ^ x, 1) else (m, 10 ^ (- x)).
Definition of_decimal (m x : Z) : Z := let (n, d) := dec_fraction m x in round_q n d.

(** [float(s)] on the text of a JSON number. *)
Definition exp_value (e : text) : Z :=
  match e with
  | _ :: c :: d => if c =? 45 then - digits_value d else if c =? 43 then digits_value d else digits_value (c :: d)
  | _ => 0
  end.
Definition parse_float (t : text) : Z :=
  match js_number t with
  | Some (n, _) =>
      let (f, e) := js_frac (n_rest n) in
      let fd := tl f in
      (match n_sign n with [] => 0 | _ => 2 ^ 63 end) + of_decimal (digits_value (n_int n ++ fd)) (exp_value e - zlen fd)
  | None => 0
  end.

(** ** repr *)
(** Absolute value of a finite float: [mant * 2^expo]. *)
Definition f_abs (f : Z) : Z := f mod 2 ^ 63.
Definition f_M (f : Z) : Z := if f_expo f =? 0 then f_mant f else 2 ^ 52 + f_mant f.
Definition f_E (f : Z) : Z := if f_expo f =? 0 then -1074 else f_expo f - 1075.
Definition f_fraction (f : Z) : Z * Z := if 0 <=? f_E f then (f_M f * 2 ^ f_E f, 1) else (f_M f, 2 ^ (- f_E f)).

Definition dec_digits (m : Z) : text := codes (str_of_Z m).
Fixpoint strip_zeros (t : text) : text :=
  match t with
  | [] => []
  | c :: r => match strip_zeros r with [] => if c =? 48 then [] else [c] | r' => c :: r' end
  end.
(** [k] with [10^(k-1) <= n/d < 10^k]. *)
Definition decpt (n d : Z) : Z := if d <=? n then zlen (dec_digits (n / d)) else 1 - zlen (dec_digits ((d - 1) / n)).

(** Shortest digits that read back as [f]: with [p] significant digits, the neighbours of [f] above and below are tried,
    the nearer one first.  If 17 digits do not do, the exact digits are used. *)
Definition candidates (n d x : Z) : list Z :=
  let (a, b) := if 0 <=? x then (n, d * 10 ^ x) else (n * 10 ^ (- x), d) in
  let q := a / b in
  if 2 * (a mod b) <? b then [q; q + 1] else [q + 1; q].
Fixpoint shortest (fuel : nat) (p : Z) (f n d k : Z) : Z * Z :=
  match fuel with
  | O => if 0 <=? f_E f then (f_M f * 2 ^ f_E f, 0) else (f_M f * 5 ^ (- f_E f), f_E f)
  | S fuel' =>
      match find (fun m => of_decimal m (k - p) =? f_abs f) (candidates n d (k - p)) with
      | Some m => (m, k - p)
      | None => shortest fuel' (p + 1) f n d k
      end
  end.

Definition zeros (n : Z) : text := repeat 48 (Z.to_nat n).
(** Digits [ds] with the decimal point after the first [k]: fixed notation for -4 < k <= 16, else exponent notation. *)
Definition exp_digits (e : Z) : text := if e <? 10 then 48 :: dec_digits e else dec_digits e.
Definition format_digits (ds : text) (k : Z) : text :=
  if (-4 <? k) && (k <=? 16) then
    if k <=? 0 then [48; 46] ++ zeros (- k) ++ ds
    else if k <? zlen ds then firstn (Z.to_nat k) ds ++ [46] ++ skipn (Z.to_nat k) ds
    else ds ++ zeros (k - zlen ds) ++ [46; 48]
  else
    (match ds with [] => [48] | [c] => [c] | c :: r => c :: 46 :: r end) ++
    [101; (if 0 <=? k - 1 then 43 else 45)] ++ exp_digits (Z.abs (k - 1)).
Definition repr_float (f : Z) : text :=
  (if f_sign f then [45] else []) ++
  (if f_M f =? 0 then codes "0.0"
   else
     let (n, d) := f_fraction f in
     let (m, x) := shortest 17 1 f n d (decpt n d) in
     let ds := strip_zeros (dec_digits m) in
     format_digits ds (zlen (dec_digits m) + x)).

Definition python_floats : floats := mkFloats repr_float parse_float.
