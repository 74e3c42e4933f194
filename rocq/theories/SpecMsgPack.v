(** * SpecMsgPack: the MessagePack formats (github.com/msgpack/msgpack/blob/master/spec.md).  Definitions only.

    [item n v b]: the octets [b] are an object, in any of its formats, that stands for the Python value [v]; at most [n]
    arrays and maps are nested in each other.  Map keys are str or bin (msgpack-python: strict_map_key).  Extension types are
    read as some ExtType object. *)
From Coq Require Import String Ascii List ZArith Bool.
From Verif Require Import PyBase Encoding SpecFormat.
Import ListNotations.
Local Open Scope Z_scope.

(** A first octet, and a length, number of elements or number that follows it in some octets. *)
Definition sized (first width n : Z) (h : bytes) : Prop := exists b, h = octet first :: b /\ count b = width /\ number b = n.
Definition short (first max n : Z) (h : bytes) : Prop := 0 <= n < max /\ h = [octet (first + n)].
Definition str_head (n : Z) (h : bytes) : Prop := short 160 32 n h \/ sized 217 1 n h \/ sized 218 2 n h \/ sized 219 4 n h.
Definition bin_head (n : Z) (h : bytes) : Prop := sized 196 1 n h \/ sized 197 2 n h \/ sized 198 4 n h.
Definition array_head (n : Z) (h : bytes) : Prop := short 144 16 n h \/ sized 220 2 n h \/ sized 221 4 n h.
Definition map_head (n : Z) (h : bytes) : Prop := short 128 16 n h \/ sized 222 2 n h \/ sized 223 4 n h.
Definition ext_head (n : Z) (h : bytes) : Prop :=
  sized 199 1 n h \/ sized 200 2 n h \/ sized 201 4 n h \/
  In (n, h) [(1, [octet 212]); (2, [octet 213]); (4, [octet 214]); (8, [octet 215]); (16, [octet 216])].

(** Two's complement. *)
Definition complement (width n : Z) : Z := if n <? 2 ^ (8 * width - 1) then n else n - 2 ^ (8 * width).
Definition text_key (v : val) : Prop := match v with VStr _ | VBytes _ => True | _ => False end.

Inductive item : nat -> val -> bytes -> Prop :=
| m_nil n : item n VNone [octet 192]
| m_false n : item n (VBool false) [octet 194]
| m_true n : item n (VBool true) [octet 195]
| m_positive_fixint n z h : short 0 128 z h -> item n (VInt z) h
| m_negative_fixint n z : -32 <= z < 0 -> item n (VInt z) [octet (256 + z)]
| m_uint n z first width h : In (first, width) [(204, 1); (205, 2); (206, 4); (207, 8)] -> sized first width z h -> item n (VInt z) h
| m_int n z first width h : In (first, width) [(208, 1); (209, 2); (210, 4); (211, 8)] -> sized first width z h ->
    item n (VInt (complement width z)) h
| m_float32 n z f h : sized 202 4 z h -> is_float 8 23 z f -> item n (VFloat f) h
| m_float64 n z h : sized 203 8 z h -> item n (VFloat z) h
| m_str n x h : str_head (count x) h -> is_text x -> item n (VStr (decode_str x)) (h ++ x)
| m_bin n x h : bin_head (count x) h -> item n (VBytes x) (h ++ x)
| m_array n l h b : array_head (count l) h -> items n l b -> item (S n) (VList l) (h ++ b)
| m_map n ps d h b : map_head (count ps) h -> pairs n ps b -> collect ps d -> item (S n) (VDict d) (h ++ b)
| m_ext n kind x h : ext_head (count x) h -> item n (VOther "ExtType" true) (h ++ kind :: x)
with items : nat -> list val -> bytes -> Prop :=
| m_items_end n : items n [] []
| m_items_more n v l b c : item n v b -> items n l c -> items n (v :: l) (b ++ c)
with pairs : nat -> list (val * val) -> bytes -> Prop :=
| m_pairs_end n : pairs n [] []
| m_pairs_more n k x ps b c e : item n k b -> text_key k -> item n x c -> pairs n ps e -> pairs n ((k, x) :: ps) (b ++ c ++ e).
