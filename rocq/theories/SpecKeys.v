(** * SpecKeys: dict keys that JSON turns into strings.  Definitions only. *)
From Coq Require Import String List ZArith Bool.
From Verif Require Import PyBase Encoding Serializer Codecs.
Import ListNotations.

(** The string that stands for a key: a str itself; None, a bool, an int or a float as it is written where it is no key. *)
Definition key_name (k : val) : option string :=
  match k with
  | VStr s => Some s
  | VNone | VBool _ | VInt _ | VFloat _ => match dumps python_json k with Ok b => Some (decode_str b) | Raise _ => None end
  | _ => None
  end.
Definition name_key (k : val) : val := match key_name k with Some s => VStr s | None => k end.
(** The value with all keys of its dicts, at any depth, replaced by those strings; keys may then occur twice. *)
Fixpoint named (v : val) : val :=
  match v with
  | VList l => VList (map named l)
  | VDict d => VDict (map (fun kv => (name_key (fst kv), named (snd kv))) d)
  | _ => v
  end.
