(** * SpecCrypto: vocabulary of C104.  Definitions only. *)
From Coq Require Import String Ascii List ZArith Bool.
From Verif Require Import PyBase.
Local Open Scope Z_scope.

(** The integer an object is, if it is one (True and False are). *)
Definition int_of (v : val) : option Z :=
  match v with VInt z => Some z | VBool true => Some 1 | VBool false => Some 0 | _ => None end.
Definition count (v : val) (n : Z) : Prop := int_of v = Some n /\ 1 <= n <= 2 ^ 31 - 1.
(** A key length may be left to the library (None): the length of the digest. *)
Definition key_size (v : val) (n : Z) : Prop := (v = VNone /\ n = 32) \/ count v n.

(** The one-character string chr(0). *)
Definition nul : string := String zero EmptyString.
