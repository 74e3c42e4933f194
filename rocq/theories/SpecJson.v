(** * SpecJson: JSON texts (RFC 8259).  Definitions only.

    Texts are lists of code points.  [document false v t]: the text [t] is a JSON text, in any of its spellings, that stands
    for the Python value [v].  Integers of more than 4300 digits are left out (Python rejects them).  Numbers with a fraction
    or an exponent stand for the nearest binary64 number, as RFC 8259 section 6 suggests.
    [document true v t]: as Python reads it, which also takes the words NaN, Infinity and -Infinity. *)
From Coq Require Import String Ascii List ZArith Bool.
From Verif Require Import PyBase Encoding SpecFormat.
Import ListNotations.
Local Open Scope Z_scope.

(** Octets of a text that may have lone surrogates, as a Python str may: RFC 3629 with the surrogates added. *)
Inductive chars : list Z -> list Z -> Prop :=
| chars_end : chars [] []
| chars_more p ps o os : utf8_char p o -> chars ps os -> chars (p :: ps) (o ++ os)
| chars_surrogate b c ps os : 32 <= b < 64 -> 0 <= c < 64 -> chars ps os ->
    chars (53248 + 64 * b + c :: ps) (237 :: 128 + b :: 128 + c :: os).
Definition str_of (ps : list Z) (s : string) : Prop := chars ps (map value (encode_str s)).

(** Section 2: insignificant whitespace. *)
Definition blank (t : list Z) : Prop := Forall (fun c => In c [32; 9; 10; 13]) t.
Definition word (s : string) : list Z := map value (encode_str s).

(** Section 7: the characters between the quotes. *)
Inductive hexdigit : Z -> Z -> Prop :=
| hex_number c : 48 <= c <= 57 -> hexdigit (c - 48) c
| hex_lower c : 97 <= c <= 102 -> hexdigit (c - 97 + 10) c
| hex_upper c : 65 <= c <= 70 -> hexdigit (c - 65 + 10) c.
(** [\uXXXX] *)
Inductive unit : Z -> list Z -> Prop :=
| unit_hex n1 n2 n3 n4 c1 c2 c3 c4 : hexdigit n1 c1 -> hexdigit n2 c2 -> hexdigit n3 c3 -> hexdigit n4 c4 ->
    unit (16 * (16 * (16 * n1 + n2) + n3) + n4) [92; 117; c1; c2; c3; c4].
Definition high (u : Z) : Prop := 55296 <= u < 56320.
Definition low (u : Z) : Prop := 56320 <= u < 57344.
Definition escapes : list (Z * Z) := [(34, 34); (92, 92); (47, 47); (98, 8); (102, 12); (110, 10); (114, 13); (116, 9)].
Inductive body : list Z -> list Z -> Prop :=
| body_end : body [] []
| body_plain c s t : 32 <= c -> c <> 34 -> c <> 92 -> body s t -> body (c :: s) (c :: t)
| body_escape e c s t : In (e, c) escapes -> body s t -> body (c :: s) (92 :: e :: t)
| body_pair u w x y s t : unit u x -> high u -> unit w y -> low w -> body s t ->
    body (65536 + 1024 * (u - 55296) + (w - 56320) :: s) (x ++ y ++ t)
| body_unit u x s t : unit u x -> ~ (high u /\ exists w y r, unit w y /\ low w /\ t = y ++ r) -> body s t ->
    body (u :: s) (x ++ t).

(** Section 6. *)
Definition digit (c : Z) : Prop := 48 <= c <= 57.
Fixpoint decimal (d : list Z) : Z := match d with [] => 0 | c :: r => (c - 48) * 10 ^ count r + decimal r end.
Inductive sign : bool -> list Z -> Prop := sign_plus : sign false [] | sign_minus : sign true [45].
Inductive whole : list Z -> Prop :=
| whole_zero : whole [48]
| whole_more c d : 49 <= c <= 57 -> Forall digit d -> whole (c :: d).
Inductive fraction : list Z -> list Z -> Prop :=
| fraction_none : fraction [] []
| fraction_some d : d <> [] -> Forall digit d -> fraction d (46 :: d).
Inductive power : Z -> list Z -> Prop :=
| power_none : power 0 []
| power_plain e d : In e [101; 69] -> d <> [] -> Forall digit d -> power (decimal d) (e :: d)
| power_plus e d : In e [101; 69] -> d <> [] -> Forall digit d -> power (decimal d) (e :: 43 :: d)
| power_minus e d : In e [101; 69] -> d <> [] -> Forall digit d -> power (- decimal d) (e :: 45 :: d).

(** The non-negative binary64 number nearest to [n / d], ties to the even one; what is nearer to 2^1024 is infinite.  All
    between 0 and infinity are in the order of their bits; for infinity [magnitude] gives 2^1024. *)
Definition Infinite : Z := 2047 * 2 ^ 52.
Definition middle (g : Z) : Z := magnitude 11 52 g + magnitude 11 52 (g + 1).
Definition nearest (n d g : Z) : Prop :=
  0 <= g <= Infinite /\
  (0 < g -> middle (g - 1) * d <= 2 * n * 2 ^ 1074 /\ (2 * n * 2 ^ 1074 = middle (g - 1) * d -> Z.Even g)) /\
  (g < Infinite -> 2 * n * 2 ^ 1074 <= middle g * d /\ (2 * n * 2 ^ 1074 = middle g * d -> Z.Even g)).
(** [m] times ten to the [x]. *)
Definition nearest_decimal (m x g : Z) : Prop := if 0 <=? x then nearest (m * 10 ^ x) 1 g else nearest m (10 ^ (- x)) g.
Definition signed (minus : bool) (f : Z) : Z := if minus then 2 ^ 63 + f else f.

Inductive element (lenient : bool) : val -> list Z -> Prop :=
| j_null : element lenient VNone (word "null")
| j_true : element lenient (VBool true) (word "true")
| j_false : element lenient (VBool false) (word "false")
| j_nan : lenient = true -> element lenient (VFloat (Infinite + 2 ^ 51)) (word "NaN")
| j_infinity : lenient = true -> element lenient (VFloat Infinite) (word "Infinity")
| j_minus_infinity : lenient = true -> element lenient (VFloat (signed true Infinite)) (word "-Infinity")
| j_integer m s i : sign m s -> whole i -> count i <= 4300 -> element lenient (VInt (if m then - decimal i else decimal i)) (s ++ i)
| j_float m s i d f x e g : sign m s -> whole i -> fraction d f -> power x e -> f ++ e <> [] ->
    nearest_decimal (decimal (i ++ d)) (x - count d) g -> element lenient (VFloat (signed m g)) (s ++ i ++ f ++ e)
| j_string x s t : body x t -> str_of x s -> element lenient (VStr s) (34 :: t ++ [34])
| j_no_items w : blank w -> element lenient (VList []) (91 :: w ++ [93])
| j_array l t : items lenient l t -> element lenient (VList l) (91 :: t ++ [93])
| j_no_members w : blank w -> element lenient (VDict []) (123 :: w ++ [125])
| j_object ps d t : members lenient ps t -> collect ps d -> element lenient (VDict d) (123 :: t ++ [125])
with items (lenient : bool) : list val -> list Z -> Prop :=
| j_item v w t w' : blank w -> element lenient v t -> blank w' -> items lenient [v] (w ++ t ++ w')
| j_items v w t w' l u : blank w -> element lenient v t -> blank w' -> items lenient l u ->
    items lenient (v :: l) (w ++ t ++ w' ++ 44 :: u)
with members (lenient : bool) : list (val * val) -> list Z -> Prop :=
| j_member k x w : pair lenient k x w -> members lenient [(k, x)] w
| j_members k x w ps u : pair lenient k x w -> members lenient ps u -> members lenient ((k, x) :: ps) (w ++ 44 :: u)
with pair (lenient : bool) : val -> val -> list Z -> Prop :=
| j_pair x s k v t w1 w2 w3 w4 : blank w1 -> body x k -> str_of x s -> blank w2 -> blank w3 -> element lenient v t -> blank w4 ->
    pair lenient (VStr s) v (w1 ++ 34 :: k ++ 34 :: w2 ++ 58 :: w3 ++ t ++ w4).

Definition document (lenient : bool) (v : val) (t : list Z) : Prop :=
  exists w u w', blank w /\ element lenient v u /\ blank w' /\ t = w ++ u ++ w'.
