(** * SpecJsonText: any text in the encodings [json.loads] understands.  Definitions only. *)
From Coq Require Import Ascii List ZArith.
From Verif Require Import PyBase Rawsocket Encoding Utf8 Json JsonBytes.
Import ListNotations.
Local Open Scope Z_scope.

(** [s.encode(e, 'surrogatepass')] for the text with the code points [t]. *)
Definition octets16 (le : bool) (u : Z) : bytes := map byte_of (if le then [u mod 256; u / 256] else [u / 256; u mod 256]).
Definition char16 (le : bool) (c : Z) : bytes :=
  if c <? 65536 then octets16 le c
  else octets16 le (55296 + (c - 65536) / 1024) ++ octets16 le (56320 + (c - 65536) mod 1024).
Definition char32 (le : bool) (c : Z) : bytes :=
  map byte_of (if le then [c mod 256; c / 256 mod 256; c / 65536 mod 256; c / 16777216]
               else [c / 16777216; c / 65536 mod 256; c / 256 mod 256; c mod 256]).
Definition encode_text (e : encoding) (t : text) : bytes :=
  match e with
  | Utf8 => utf8_encode t
  | Utf8Sig => map byte_of [239; 187; 191] ++ utf8_encode t
  | Utf16 le => flat_map (char16 le) t
  | Utf16Bom le => map byte_of (if le then [255; 254] else [254; 255]) ++ flat_map (char16 le) t
  | Utf32 le => flat_map (char32 le) t
  | Utf32Bom le => map byte_of (if le then [255; 254; 0; 0] else [0; 0; 254; 255]) ++ flat_map (char32 le) t
  end.
(** UTF-16 cannot tell a high surrogate followed by a low one from one character beyond U+FFFF. *)
Definition encodable_as (e : encoding) (t : text) : Prop :=
  match e with
  | Utf16 _ | Utf16Bom _ => forall a h l b, t = a ++ h :: l :: b -> 55296 <= h < 56320 -> 56320 <= l < 57344 -> False
  | _ => True
  end.
