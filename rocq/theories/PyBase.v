(** * PyBase: the fragment of Python's data model used by wampproto.

    Python is not part of /repo; this file fixes how Python values, exceptions, dicts and sets
    are represented by the models of the repo's modules.  It contains definitions only. *)
From Coq Require Import String Ascii List ZArith Bool DecimalString.
Import ListNotations.
Local Open Scope Z_scope.

(** Python [bytes]: a list of octets. *)
Definition bytes := list ascii.

(** Python values that a JSON / CBOR / MsgPack decoder can return (and users can pass as arguments).
    - [str] is represented by the octets of its UTF-8 encoding (equality, emptiness and ASCII-ness agree);
    - [float] by its IEEE-754 binary64 bit pattern;
    - [dict] by its items in insertion order;
    - any other object (CBOR tags, datetimes, ...) by [VOther], remembering only its type name and truth value. *)
Inductive val : Type :=
| VNone
| VBool (b : bool)
| VInt (z : Z)
| VFloat (bits : Z)
| VStr (s : string)
| VBytes (b : bytes)
| VList (l : list val)
| VDict (d : list (val * val))
| VOther (tyname : string) (truth : bool).

Definition dict := list (val * val).

(** [int] at run time: [isinstance(True, int)] holds in Python, so an "int" may be a bool. *)
Inductive pyint : Type :=
| PyInt (z : Z)
| PyBool (b : bool).

(** The number an int-or-bool compares and hashes as ([True == 1], [hash(True) == hash(1)]). *)
Definition pyint_Z (i : pyint) : Z :=
  match i with PyInt z => z | PyBool b => if b then 1 else 0 end.

(** The Python object itself (a bool stays a bool when marshalled). *)
Definition pyint_val (i : pyint) : val :=
  match i with PyInt z => VInt z | PyBool b => VBool b end.

(** [isinstance(v, int)], returning the int object. *)
Definition as_int (v : val) : option pyint :=
  match v with VInt z => Some (PyInt z) | VBool b => Some (PyBool b) | _ => None end.

Definition as_str (v : val) : option string := match v with VStr s => Some s | _ => None end.
Definition as_list (v : val) : option (list val) := match v with VList l => Some l | _ => None end.
Definition as_dict (v : val) : option dict := match v with VDict d => Some d | _ => None end.

(** [type(v).__name__]. *)
Definition type_name (v : val) : string :=
  match v with
  | VNone => "NoneType" | VBool _ => "bool" | VInt _ => "int" | VFloat _ => "float"
  | VStr _ => "str" | VBytes _ => "bytes" | VList _ => "list" | VDict _ => "dict"
  | VOther n _ => n
  end%string.

(** IEEE-754 binary64 fields of a bit pattern. *)
Definition f_sign (b : Z) : bool := Z.odd (b / 2^63).
Definition f_expo (b : Z) : Z := (b / 2^52) mod 2^11.
Definition f_mant (b : Z) : Z := b mod 2^52.

(** [float == int] (exact comparison, as CPython does it). *)
Definition float_eq_int (bits z : Z) : bool :=
  let e := f_expo bits in
  let m := f_mant bits in
  if e =? 2047 then false                        (* inf / nan *)
  else
    let M := if e =? 0 then m else 2^52 + m in
    let E := (if e =? 0 then 1 else e) - 1075 in
    let M := if f_sign bits then - M else M in
    if 0 <=? E then M * 2^E =? z else M =? z * 2^(- E).

(** [v == z] for an int [z]. *)
Definition py_eq_int (v : val) (z : Z) : bool :=
  match v with
  | VInt x => x =? z
  | VBool b => (if b then 1 else 0) =? z
  | VFloat f => float_eq_int f z
  | _ => false
  end.

(** [bool(v)]. *)
Definition truthy (v : val) : bool :=
  match v with
  | VNone => false
  | VBool b => b
  | VInt z => negb (z =? 0)
  | VFloat f => negb ((f_expo f =? 0) && (f_mant f =? 0))
  | VStr s => match s with EmptyString => false | _ => true end
  | VBytes b => match b with [] => false | _ => true end
  | VList l => match l with [] => false | _ => true end
  | VDict d => match d with [] => false | _ => true end
  | VOther _ t => t
  end.

(** [str(n)] for an int. *)
Definition str_of_Z (z : Z) : string := NilZero.string_of_int (Z.to_int z).

(** [str(v)] as used inside f-strings for scalars.  Simplification: for floats, bytes and containers only
    the type name is kept (the text is never inspected by the code). *)
Definition py_str (v : val) : string :=
  match v with
  | VNone => "None"
  | VBool b => if b then "True" else "False"
  | VInt z => str_of_Z z
  | VStr s => s
  | v => append "<" (append (type_name v) ">")
  end%string.

(** Python exceptions.  [ValueError] carries its [args] (always strings in this code base). *)
Inductive exn : Type :=
| ValueError (args : list string)
| TypeError (msg : string)
| KeyError
| IndexError
| AttributeError (msg : string)
| NotImplementedError
| BinasciiError (msg : string)            (* binascii.Error, a subclass of ValueError *)
| OverflowError (msg : string)
| RecursionError
| LibError (cls msg : string)             (* messages/exceptions.py classes deriving from Exception *)
| ApplicationError (message : string) (args : option (list val)) (kwargs : option dict)
| CodecError (msg : string)               (* exceptions of json / msgpack / cbor2 decoders and encoders *)
| ModelGap.                               (* a situation the typed model excludes; proved unreachable *)

Inductive res (A : Type) : Type :=
| Ok (a : A)
| Raise (e : exn).
Arguments Ok {A} a.
Arguments Raise {A} e.

Definition bind {A B} (r : res A) (k : A -> res B) : res B :=
  match r with Ok a => k a | Raise e => Raise e end.
Notation "'let!' x ':=' r 'in' k" := (bind r (fun x => k))
  (at level 200, x pattern, r at level 100, k at level 200, right associativity).

(** [isinstance(e, ValueError)]. *)
Definition is_value_error (e : exn) : bool :=
  match e with ValueError _ | BinasciiError _ => true | _ => false end.

(** [d.get(k)] for a [str] key [k]: only a [str] key can compare equal to a [str]. *)
Fixpoint sget (k : string) (d : dict) : option val :=
  match d with
  | [] => None
  | (VStr k', v) :: d' => if String.eqb k k' then Some v else sget k d'
  | _ :: d' => sget k d'
  end.

(** [d.get(k, default)]. *)
Definition sget_default (k : string) (dflt : val) (d : dict) : val :=
  match sget k d with Some v => v | None => dflt end.

(** [d[k] = v] for a [str] key [k]: replaces in place, else appends. *)
Fixpoint sset (k : string) (v : val) (d : dict) : dict :=
  match d with
  | [] => [(VStr k, v)]
  | (VStr k', v') :: d' => if String.eqb k k' then (VStr k', v) :: d' else (VStr k', v') :: sset k v d'
  | kv :: d' => kv :: sset k v d'
  end.

(** Typed insertion-ordered dicts (internal tables of the router), keys compared by [eqb]. *)
Section Dict.
  Context {K V : Type} (eqb : K -> K -> bool).

  Fixpoint dget (k : K) (d : list (K * V)) : option V :=
    match d with
    | [] => None
    | (k', v) :: d' => if eqb k k' then Some v else dget k d'
    end.

  Definition dmem (k : K) (d : list (K * V)) : bool :=
    match dget k d with Some _ => true | None => false end.

  (** [d[k] = v] *)
  Fixpoint dset (k : K) (v : V) (d : list (K * V)) : list (K * V) :=
    match d with
    | [] => [(k, v)]
    | (k', v') :: d' => if eqb k k' then (k', v) :: d' else (k', v') :: dset k v d'
    end.

  (** [del d[k]] on a present key (callers test [dmem] first and raise [KeyError] otherwise). *)
  Fixpoint ddel (k : K) (d : list (K * V)) : list (K * V) :=
    match d with
    | [] => []
    | (k', v') :: d' => if eqb k k' then d' else (k', v') :: ddel k d'
    end.
End Dict.

(** Sets of ints. *)
Definition smem (x : Z) (s : list Z) : bool := existsb (Z.eqb x) s.
Definition sadd (x : Z) (s : list Z) : list Z := if smem x s then s else s ++ [x].
Fixpoint srem (x : Z) (s : list Z) : list Z :=
  match s with [] => [] | y :: s' => if x =? y then s' else y :: srem x s' end.

Definition zget {V} := @dget Z V Z.eqb.
Definition zmem {V} := @dmem Z V Z.eqb.
Definition zset {V} := @dset Z V Z.eqb.
Definition zdel {V} := @ddel Z V Z.eqb.

Definition tget {V} := @dget string V String.eqb.
Definition tmem {V} := @dmem string V String.eqb.
Definition tset {V} := @dset string V String.eqb.
Definition tdel {V} := @ddel string V String.eqb.

Definition zz_eqb (a b : Z * Z) : bool := (fst a =? fst b) && (snd a =? snd b).
Definition zzget {V} := @dget (Z * Z) V zz_eqb.
Definition zzmem {V} := @dmem (Z * Z) V zz_eqb.
Definition zzset {V} := @dset (Z * Z) V zz_eqb.
Definition zzdel {V} := @ddel (Z * Z) V zz_eqb.
