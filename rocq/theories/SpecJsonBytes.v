(** * SpecJsonBytes: an ASCII text in the encodings [json.loads] understands. *)
From Coq Require Import Ascii List ZArith.
From Verif Require Import PyBase Rawsocket Encoding Utf8 JsonBytes.
Import ListNotations.
Local Open Scope Z_scope.

Definition wide16 (le : bool) (b : bytes) : bytes := flat_map (fun a => if le then [a; byte_of 0] else [byte_of 0; a]) b.
Definition wide32 (le : bool) (b : bytes) : bytes :=
  flat_map (fun a => if le then [a; byte_of 0; byte_of 0; byte_of 0] else [byte_of 0; byte_of 0; byte_of 0; a]) b.
(** [s.encode(e)] for an ASCII text with the octets [b], with a byte-order mark where the encoding has one. *)
Definition encode_as (e : encoding) (b : bytes) : bytes :=
  match e with
  | Utf8 => b
  | Utf8Sig => map byte_of [239; 187; 191] ++ b
  | Utf16 le => wide16 le b
  | Utf16Bom le => map byte_of (if le then [255; 254] else [254; 255]) ++ wide16 le b
  | Utf32 le => wide32 le b
  | Utf32Bom le => map byte_of (if le then [255; 254; 0; 0] else [0; 0; 254; 255]) ++ wide32 le b
  end.
