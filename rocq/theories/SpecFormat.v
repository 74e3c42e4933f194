(** * SpecFormat: numbers, texts and dicts as the wire formats describe them.  Definitions only.

    Shared by SpecCbor, SpecMsgPack and SpecJson; uses nothing of the decoders. *)
From Coq Require Import String Ascii List ZArith Bool.
From Verif Require Import PyBase Encoding.
Import ListNotations.
Local Open Scope Z_scope.

Definition octet (z : Z) : ascii := ascii_of_N (Z.to_N z).
Definition value (a : ascii) : Z := Z.of_N (N_of_ascii a).
Definition count {A} (l : list A) : Z := Z.of_nat (length l).

(** Big-endian numbers. *)
Fixpoint number (b : bytes) : Z :=
  match b with [] => 0 | a :: r => value a * 256 ^ count r + number r end.

(** ** UTF-8 (RFC 3629): the octets of one character, of a text. *)
Inductive utf8_char : Z -> list Z -> Prop :=
| one p : 0 <= p < 128 -> utf8_char p [p]
| two a b : 0 <= a < 32 -> 0 <= b < 64 -> 128 <= 64 * a + b -> utf8_char (64 * a + b) [192 + a; 128 + b]
| three a b c p : 0 <= a < 16 -> 0 <= b < 64 -> 0 <= c < 64 -> p = 4096 * a + 64 * b + c -> 2048 <= p ->
    ~ (55296 <= p < 57344) -> utf8_char p [224 + a; 128 + b; 128 + c]
| four a b c d p : 0 <= a < 8 -> 0 <= b < 64 -> 0 <= c < 64 -> 0 <= d < 64 -> p = 262144 * a + 4096 * b + 64 * c + d ->
    65536 <= p <= 1114111 -> utf8_char p [240 + a; 128 + b; 128 + c; 128 + d].
Inductive utf8 : list Z -> list Z -> Prop :=
| utf8_end : utf8 [] []
| utf8_more p ps o os : utf8_char p o -> utf8 ps os -> utf8 (p :: ps) (o ++ os).
(** Octets that are the UTF-8 form of a text. *)
Definition is_text (b : bytes) : Prop := exists ps, utf8 ps (map value b).

(** ** IEEE 754: a binary number with [e] exponent and [m] mantissa bits.  The magnitude is given in units of 2^-1074, of
    which every such number of at most 64 bits is a multiple. *)
Definition negative (e m z : Z) : bool := z / 2 ^ (e + m) =? 1.
Definition exponent (e m z : Z) : Z := z / 2 ^ m mod 2 ^ e.
Definition mantissa (m z : Z) : Z := z mod 2 ^ m.
Definition bias (e : Z) : Z := 2 ^ (e - 1) - 1.
Definition magnitude (e m z : Z) : Z :=
  if exponent e m z =? 0 then mantissa m z * 2 ^ (1075 - bias e - m)
  else (2 ^ m + mantissa m z) * 2 ^ (1074 + exponent e m z - bias e - m).
Definition finite (e m z : Z) : Prop := exponent e m z <> 2 ^ e - 1.
(** The binary64 number [f] is the number [z]; for a NaN also with its payload. *)
Definition is_float (e m z f : Z) : Prop :=
  0 <= f < 2 ^ 64 /\ negative 11 52 f = negative e m z /\
  (finite e m z /\ finite 11 52 f /\ magnitude 11 52 f = magnitude e m z \/
   ~ finite e m z /\ ~ finite 11 52 f /\ mantissa 52 f = mantissa m z * 2 ^ (52 - m)).

(** ** Dicts.  Numbers, in units of 2^-1074. *)
Definition amount (v : val) : option Z :=
  match v with
  | VInt z => Some (z * 2 ^ 1074)
  | VBool b => Some (if b then 2 ^ 1074 else 0)
  | VFloat f => if exponent 11 52 f =? 2047 then None
                else Some (if negative 11 52 f then - magnitude 11 52 f else magnitude 11 52 f)
  | _ => None
  end.
Definition infinite (f : Z) : Prop := exponent 11 52 f = 2047 /\ mantissa 52 f = 0.
(** Keys that are equal for Python: 1 == 1.0 == True, 0.0 == -0.0, NaN differs from everything. *)
Definition same_key (a b : val) : Prop :=
  match a, b with
  | VStr s, VStr t => s = t
  | VBytes s, VBytes t => s = t
  | VNone, VNone => True
  | _, _ => (exists n, amount a = Some n /\ amount b = Some n) \/
            (exists f, a = VFloat f /\ b = VFloat f /\ infinite f)
  end.
(** The dict made of key-value pairs, in order.  A further pair with the same key replaces the value: the key and its place
    stay. *)
Inductive collect : list (val * val) -> dict -> Prop :=
| collect_none : collect [] []
| collect_new ps d k x : collect ps d -> (forall k' y, In (k', y) d -> ~ same_key k k') -> collect (ps ++ [(k, x)]) (d ++ [(k, x)])
| collect_again ps d1 d2 k k' x y : collect ps (d1 ++ (k', y) :: d2) -> same_key k k' -> collect (ps ++ [(k, x)]) (d1 ++ (k', x) :: d2).
