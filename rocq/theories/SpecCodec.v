(** * SpecCodec: which values the wire formats can carry.  Definitions only. *)
From Coq Require Import String Ascii List ZArith Bool.
From Verif Require Import PyBase Encoding Utf8 CodecBase.
Import ListNotations.
Local Open Scope Z_scope.

(** [P] holds of a value and of everything in it. *)
Fixpoint everywhere (P : val -> Prop) (v : val) : Prop :=
  P v /\
  match v with
  | VList l => (fix go l := match l with [] => True | x :: l' => everywhere P x /\ go l' end) l
  | VDict d => (fix go d := match d with [] => True | (k, x) :: d' => everywhere P k /\ everywhere P x /\ go d' end) d
  | _ => True
  end.

(** Nesting depth: 0 for scalars and empty containers. *)
Fixpoint depth (v : val) : nat :=
  match v with
  | VList l => (fix go l := match l with [] => O | x :: l' => Nat.max (S (depth x)) (go l') end) l
  | VDict d => (fix go d := match d with [] => O | (k, x) :: d' => Nat.max (Nat.max (S (depth k)) (S (depth x))) (go d') end) d
  | _ => O
  end.

(** How many lists and dicts are nested in each other. *)
Fixpoint levels (v : val) : nat :=
  match v with
  | VList l => S ((fix go l := match l with [] => O | x :: l' => Nat.max (levels x) (go l') end) l)
  | VDict d => S ((fix go d := match d with [] => O | (k, x) :: d' => Nat.max (Nat.max (levels k) (levels x)) (go d') end) d)
  | _ => O
  end.

(** What any Python value satisfies: strings consist of code points, floats have 64 bits. *)
Definition python_value (v : val) : Prop :=
  match v with
  | VStr s => is_str (encode_str s) = true
  | VFloat f => 0 <= f < 2 ^ 64
  | _ => True
  end.

Definition text_key (v : val) : Prop := match v with VStr _ | VBytes _ => True | _ => False end.
Definition str_key (v : val) : Prop := match v with VStr _ => True | _ => False end.

(** Text that can be encoded as UTF-8: no surrogates. *)
Definition unicode (s : string) : Prop := utf8_valid (encode_str s) = true.
(** Text that JSON can carry: no high surrogate directly before a low one. *)
Definition json_text (s : string) : Prop := match str_points (encode_str s) with Some ps => no_pair ps = true | None => False end.

(** MsgPack: no surrogates, 64-bit integers, lengths below 2^32, str or bytes keys, nesting at most 511. *)
Definition msgpack_here (v : val) : Prop :=
  python_value v /\
  match v with
  | VInt z => - 2 ^ 63 <= z < 2 ^ 64
  | VStr s => unicode s /\ Z.of_nat (String.length s) < 2 ^ 32
  | VBytes b => Z.of_nat (length b) < 2 ^ 32
  | VList l => Z.of_nat (length l) < 2 ^ 32
  | VDict d => Z.of_nat (length d) < 2 ^ 32 /\ NoDup (map fst d) /\ Forall text_key (map fst d)
  | VOther _ _ => False
  | _ => True
  end.
Definition msgpack_value (v : val) : Prop := everywhere msgpack_here v /\ (depth v <= 511)%nat.

(** CBOR: no surrogates, lengths below 2^64, the one NaN the format produces, scalar keys no two of which are equal for Python
    (1 == 1.0 == True). *)
Definition scalar_key (v : val) : Prop := match v with VList _ | VDict _ | VOther _ _ => False | _ => True end.
Definition distinct_keys (ks : list val) : Prop := ForallOrdPairs (fun a b => key_eqb b a = false) ks.
Definition cbor_here (v : val) : Prop :=
  python_value v /\
  match v with
  | VInt z => Z.log2 (Z.abs z) + 1 < 2 ^ 64
  | VFloat f => is_nan f = true -> f = NAN
  | VStr s => unicode s /\ Z.of_nat (String.length s) < 2 ^ 64
  | VBytes b => Z.of_nat (length b) < 2 ^ 64
  | VList l => Z.of_nat (length l) < 2 ^ 64
  | VDict d => Z.of_nat (length d) < 2 ^ 64 /\ distinct_keys (map fst d) /\ Forall scalar_key (map fst d)
  | VOther _ _ => False
  | _ => True
  end.
Definition cbor_value (v : val) : Prop := everywhere cbor_here v.

(** JSON: no bytes, no surrogate pairs in strings (JSON reads them as one character), str keys, integers of at most 4300 digits, the one NaN the format produces. *)
Definition json_here (v : val) : Prop :=
  python_value v /\
  match v with
  | VInt z => Z.abs z < 10 ^ 4300
  | VFloat f => is_nan f = true -> f = NAN
  | VStr s => json_text s
  | VBytes _ => False
  | VDict d => NoDup (map fst d) /\ Forall str_key (map fst d)
  | VOther _ _ => False
  | _ => True
  end.
Definition json_value (v : val) : Prop := everywhere json_here v.

(** Built from None, bool, int, float, str, bytes, list and dict only. *)
Definition plain_data (v : val) : Prop := everywhere (fun x => match x with VOther _ _ => False | _ => True end) v.

(** Values that all three formats carry: no bytes, str keys, 64-bit integers, lengths below 2^32, the usual NaN,
    nesting at most 511. *)
Definition portable_here (v : val) : Prop :=
  python_value v /\
  match v with
  | VInt z => - 2 ^ 63 <= z < 2 ^ 64
  | VFloat f => is_nan f = true -> f = NAN
  | VStr s => unicode s /\ Z.of_nat (String.length s) < 2 ^ 32
  | VBytes _ => False
  | VList l => Z.of_nat (length l) < 2 ^ 32
  | VDict d => Z.of_nat (length d) < 2 ^ 32 /\ NoDup (map fst d) /\ Forall str_key (map fst d)
  | VOther _ _ => False
  | _ => True
  end.
Definition portable (v : val) : Prop := everywhere portable_here v /\ (depth v <= 511)%nat.

(** No NaN but the usual one. *)
Definition usual_nan (v : val) : Prop := everywhere (fun x => match x with VFloat f => is_nan f = true -> f = NAN | _ => True end) v.

(** Strings and dicts that all formats carry, the latter also inside a message. *)
Definition short_text (s : string) : Prop := unicode s /\ Z.of_nat (String.length s) < 2 ^ 32.
Definition small (d : dict) : Prop := everywhere portable_here (VDict d) /\ (depth (VDict d) <= 500)%nat.
