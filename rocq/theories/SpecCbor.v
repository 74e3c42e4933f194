(** * SpecCbor: the data items of RFC 8949.  Definitions only.

    [item false v b]: the octets [b] are a well-formed data item, in any of its encodings, that stands for the Python value
    [v].  Left out: tags other than bignums, and maps with keys that are arrays, maps or simple values.  Bignums of no octets
    are left out as well (cbor2 rejects them).
    [item true v b]: as cbor2 reads it, which also takes a one-octet simple value below 32 and, where no break is expected,
    a break. *)
From Coq Require Import String Ascii List ZArith Bool.
From Verif Require Import PyBase Encoding SpecFormat.
Import ListNotations.
Local Open Scope Z_scope.

(** Section 3: the initial octet has the major type in its high 3 bits; the argument is in the low 5 bits or follows in 1, 2,
    4 or 8 octets. *)
Definition initial (major info : Z) : ascii := octet (32 * major + info).
Inductive head (major : Z) : Z -> bytes -> Prop :=
| head_here n : 0 <= n < 24 -> head major n [initial major n]
| head_next info b : In (info, count b) [(24, 1); (25, 2); (26, 4); (27, 8)] -> head major (number b) (initial major info :: b).
Definition break : ascii := octet 255.

(** Section 3.2.3: strings in chunks; each chunk of a text is a text. *)
Inductive chunks (major : Z) (ok : bytes -> Prop) : bytes -> bytes -> Prop :=
| chunks_none : chunks major ok [] []
| chunks_more x h y b : head major (count x) h -> ok x -> chunks major ok y b -> chunks major ok (x ++ y) (h ++ x ++ b).

Definition scalar (v : val) : Prop := match v with VList _ | VDict _ | VOther _ _ => False | _ => True end.
Definition Undefined : val := VOther "undefined_type" false.
Definition Simple : val := VOther "CBORSimpleValue" true.
Definition Break : val := VOther "break_marker_type" true.

Inductive item (lenient : bool) : val -> bytes -> Prop :=
| c_unsigned n h : head 0 n h -> item lenient (VInt n) h
| c_negative n h : head 1 n h -> item lenient (VInt (- 1 - n)) h
| c_byte_string x h : head 2 (count x) h -> item lenient (VBytes x) (h ++ x)
| c_byte_chunks x b : chunks 2 (fun _ => True) x b -> item lenient (VBytes x) (initial 2 31 :: b ++ [break])
| c_text_string x h : head 3 (count x) h -> is_text x -> item lenient (VStr (decode_str x)) (h ++ x)
| c_text_chunks x b : chunks 3 is_text x b -> item lenient (VStr (decode_str x)) (initial 3 31 :: b ++ [break])
| c_array l h b : head 4 (count l) h -> items lenient l b -> item lenient (VList l) (h ++ b)
| c_open_array l b : items lenient l b -> ~ In Break l -> item lenient (VList l) (initial 4 31 :: b ++ [break])
| c_map ps d h b : head 5 (count ps) h -> pairs lenient ps b -> collect ps d -> item lenient (VDict d) (h ++ b)
| c_open_map ps d b : pairs lenient ps b -> collect ps d -> item lenient (VDict d) (initial 5 31 :: b ++ [break])
| c_bignum x h b : head 6 2 h -> item lenient (VBytes x) b -> x <> [] -> item lenient (VInt (number x)) (h ++ b)
| c_negative_bignum x h b : head 6 3 h -> item lenient (VBytes x) b -> x <> [] -> item lenient (VInt (- 1 - number x)) (h ++ b)
| c_simple n : 0 <= n < 20 -> item lenient Simple [initial 7 n]
| c_simple_next a : 32 <= value a \/ lenient = true -> item lenient Simple [initial 7 24; a]
| c_false : item lenient (VBool false) [initial 7 20]
| c_true : item lenient (VBool true) [initial 7 21]
| c_null : item lenient VNone [initial 7 22]
| c_undefined : item lenient Undefined [initial 7 23]
| c_half b f : count b = 2 -> is_float 5 10 (number b) f -> item lenient (VFloat f) (initial 7 25 :: b)
| c_single b f : count b = 4 -> is_float 8 23 (number b) f -> item lenient (VFloat f) (initial 7 26 :: b)
| c_double b : count b = 8 -> item lenient (VFloat (number b)) (initial 7 27 :: b)
| c_stray_break : lenient = true -> item lenient Break [break]
with items (lenient : bool) : list val -> bytes -> Prop :=
| c_items_end : items lenient [] []
| c_items_more v l b c : item lenient v b -> items lenient l c -> items lenient (v :: l) (b ++ c)
with pairs (lenient : bool) : list (val * val) -> bytes -> Prop :=
| c_pairs_end : pairs lenient [] []
| c_pairs_more k x ps b c e : item lenient k b -> scalar k -> item lenient x c -> pairs lenient ps e -> pairs lenient ((k, x) :: ps) (b ++ c ++ e).
