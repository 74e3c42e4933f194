(** * JsonBytes: [json.loads] on bytes.  Definitions only.

    wampproto/serializers/json.py:14 and serializers/payload.py:89 call [json.loads] with whatever they are given; for [bytes] it first
    finds out the encoding (Lib/json/__init__.py, detect_encoding) and decodes with the 'surrogatepass' error handler. *)
From Coq Require Import String Ascii List ZArith Bool.
From Verif Require Import PyBase Rawsocket Encoding Utf8 CodecBase Serializer Json Float.
Import ListNotations.
Local Open Scope Z_scope.

(** [b.decode('utf-16-le' or 'utf-16-be', 'surrogatepass')] *)
Definition unit16 (le : bool) (x y : ascii) : Z := if le then byte_Z x + 256 * byte_Z y else 256 * byte_Z x + byte_Z y.
Definition pair_code (h l : Z) : Z := 65536 + (h - 55296) * 1024 + (l - 56320).
Fixpoint utf16_decode (le : bool) (b : bytes) : option text :=
  match b with
  | [] => Some []
  | [_] => None
  | x :: y :: r =>
      let u := unit16 le x y in
      match r with
      | x' :: y' :: r' =>
          let v := unit16 le x' y' in
          if is_high u && is_low v then cons_opt (pair_code u v) (utf16_decode le r') else cons_opt u (utf16_decode le r)
      | _ => cons_opt u (utf16_decode le r)
      end
  end.
(** [b.decode('utf-32-le' or 'utf-32-be', 'surrogatepass')] *)
Definition unit32 (le : bool) (x y z w : ascii) : Z :=
  if le then unit16 true x y + 65536 * unit16 true z w else 65536 * unit16 false x y + unit16 false z w.
Fixpoint utf32_decode (le : bool) (b : bytes) : option text :=
  match b with
  | [] => Some []
  | x :: y :: z :: w :: r => let u := unit32 le x y z w in if is_code u then cons_opt u (utf32_decode le r) else None
  | _ => None
  end.

Inductive encoding := Utf8 | Utf8Sig | Utf16 (le : bool) | Utf16Bom (le : bool) | Utf32 (le : bool) | Utf32Bom (le : bool).
Definition starts_with (p : list Z) (b : bytes) : bool :=
  (fix go p b := match p, b with [], _ => true | c :: p', a :: b' => (c =? byte_Z a) && go p' b' | _, [] => false end) p b.
Definition zero (a : ascii) : bool := byte_Z a =? 0.
(** json.detect_encoding *)
Definition detect_encoding (b : bytes) : encoding :=
  if starts_with [0; 0; 254; 255] b then Utf32Bom false
  else if starts_with [255; 254; 0; 0] b then Utf32Bom true
  else if starts_with [254; 255] b then Utf16Bom false
  else if starts_with [255; 254] b then Utf16Bom true
  else if starts_with [239; 187; 191] b then Utf8Sig
  else match b with
       | b0 :: b1 :: b2 :: b3 :: _ =>
           if zero b0 then (if zero b1 then Utf32 false else Utf16 false)
           else if zero b1 then (if zero b2 && zero b3 then Utf32 true else Utf16 true)
           else Utf8
       | [b0; b1] => if zero b0 then Utf16 false else if zero b1 then Utf16 true else Utf8
       | _ => Utf8
       end.
(** [b.decode(detect_encoding(b), 'surrogatepass')]; the codecs with a byte-order mark drop it. *)
Definition decode_as (e : encoding) (b : bytes) : option text :=
  match e with
  | Utf8 => str_points b
  | Utf8Sig => str_points (skipn 3 b)
  | Utf16 le => utf16_decode le b
  | Utf16Bom le => utf16_decode le (skipn 2 b)
  | Utf32 le => utf32_decode le b
  | Utf32Bom le => utf32_decode le (skipn 4 b)
  end.
(** [json.loads(b)] for [bytes]; a UnicodeDecodeError is a ValueError. *)
Definition js_loads_bytes (fl : floats) (b : bytes) : res val :=
  match decode_as (detect_encoding b) b with
  | None => Raise (ValueError ["cannot decode"%string])
  | Some t => js_decode fl (length t) t
  end.

Definition json_bytes : codec := mkCodec (js_dumps python_floats) (js_loads_bytes python_floats).
