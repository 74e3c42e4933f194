(** * Cbor: cbor2.dumps and cbor2.loads, as called by wampproto/serializers/cbor.py and payload.py (no options).
    Definitions only.

    The library is not part of /repo; this follows cbor2 5.7.0 (the version in uv.lock).  Not modelled ([ModelGap]):
    objects outside [val], semantic tags other than bignums, container keys; nor recursion limits of the encoder.  All of cbor2's decoding
    errors (CBORDecodeError and its subclasses) are [CodecError]. *)
From Coq Require Import String Ascii List ZArith Bool.
From Verif Require Import PyBase Rawsocket Encoding Utf8 CodecBase Serializer MsgPack.
Import ListNotations.
Local Open Scope Z_scope.

(** encode_length *)
Definition cb_head (major n : Z) : bytes :=
  if n <? 24 then [byte_of (32 * major + n)]
  else if n <? 2 ^ 8 then byte_of (32 * major + 24) :: to_be 1 n
  else if n <? 2 ^ 16 then byte_of (32 * major + 25) :: to_be 2 n
  else if n <? 2 ^ 32 then byte_of (32 * major + 26) :: to_be 4 n
  else byte_of (32 * major + 27) :: to_be 8 n.

(** encode_int; beyond 64 bits a bignum: tag 2 or 3 around the big-endian octets. *)
Definition bit_length (z : Z) : Z := if z =? 0 then 0 else Z.log2 z + 1.
Definition cb_bignum (tag z : Z) : bytes :=
  let n := (bit_length z + 7) / 8 in cb_head 6 tag ++ cb_head 2 n ++ to_be (Z.to_nat n) z.
Definition cb_int (z : Z) : bytes :=
  if 0 <=? z then if z <? 2 ^ 64 then cb_head 0 z else cb_bignum 2 z
  else if - 2 ^ 64 <=? z then cb_head 1 (- (z + 1)) else cb_bignum 3 (- z - 1).

(** encode_float *)
Definition cb_float (f : Z) : bytes :=
  if is_nan f then [byte_of 249; byte_of 126; byte_of 0]
  else if f =? INF then [byte_of 249; byte_of 124; byte_of 0]
  else if f =? 2 ^ 63 + INF then [byte_of 249; byte_of 252; byte_of 0]
  else byte_of 251 :: to_be 8 f.

Fixpoint cb_enc (v : val) : res bytes :=
  match v with
  | VNone => Ok [byte_of 246]
  | VBool b => Ok [byte_of (if b then 245 else 244)]
  | VInt z => Ok (cb_int z)
  | VFloat f => Ok (cb_float f)
  | VStr s => let! x := strict_encode s in Ok (cb_head 3 (zlen x) ++ x)
  | VBytes b => Ok (cb_head 2 (zlen b) ++ b)
  | VList l =>
      cat (Ok (cb_head 4 (zlen l))) ((fix items l := match l with [] => Ok [] | x :: l' => cat (cb_enc x) (items l') end) l)
  | VDict d =>
      cat (Ok (cb_head 5 (zlen d)))
        ((fix pairs d := match d with [] => Ok [] | (k, x) :: d' => cat (cb_enc k) (cat (cb_enc x) (pairs d')) end) d)
  | VOther _ _ => Raise ModelGap
  end.

(** ** Decoder *)
(** _decode_length; [None] is an indefinite length. *)
Definition cb_len (sub : Z) (r : bytes) : res (option Z * bytes) :=
  if sub <? 24 then Ok (Some sub, r)
  else if sub =? 24 then let! (n, r') := take_int 1 r in Ok (Some n, r')
  else if sub =? 25 then let! (n, r') := take_int 2 r in Ok (Some n, r')
  else if sub =? 26 then let! (n, r') := take_int 4 r in Ok (Some n, r')
  else if sub =? 27 then let! (n, r') := take_int 8 r in Ok (Some n, r')
  else if sub =? 31 then Ok (None, r)
  else Raise (CodecError "unknown unsigned integer subtype").
Definition cb_uint (sub : Z) (r : bytes) : res (Z * bytes) :=
  let! (n, r') := cb_len sub r in
  match n with Some z => Ok (z, r') | None => Raise (CodecError "unknown unsigned integer subtype") end.

(** The chunks of an indefinite byte or text string, up to the break octet 0xff; each has the same major type and a
    definite length. *)
Fixpoint cb_chunks (fuel : nat) (major : Z) (r : bytes) : res (bytes * bytes) :=
  match fuel with
  | O => Raise RecursionError
  | S f =>
      match r with
      | [] => Raise (CodecError "premature end of stream")
      | a :: r1 =>
          let c := byte_Z a in
          if c =? 255 then Ok ([], r1)
          else if c / 32 =? major then
            let! (n, r2) := cb_uint (c mod 32) r1 in
            let! (x, r3) := take (Z.to_nat n) r2 in
            if (major =? 3) && negb (utf8_valid x) then Raise (CodecError "error decoding unicode string")
            else let! (y, r4) := cb_chunks f major r3 in Ok (x ++ y, r4)
          else Raise (CodecError "non-string found in indefinite length string")
      end
  end.
Definition cb_string (fuel : nat) (major sub : Z) (r : bytes) : res (bytes * bytes) :=
  let! (n, r') := cb_len sub r in
  match n with
  | Some z => take (Z.to_nat z) r'
  | None => cb_chunks fuel major r'
  end.

Definition hashable (v : val) : bool := match v with VList _ | VDict _ | VOther _ _ => false | _ => true end.

Section Items.
  Context (dec : bytes -> res (val * bytes)).
  Fixpoint cb_pairs (n : nat) (d : dict) (b : bytes) : res (dict * bytes) :=
    match n with
    | O => Ok (d, b)
    | S n' =>
        let! (k, r) := dec b in
        let! (x, r') := dec r in
        if hashable k then cb_pairs n' (vset k x d) r' else Raise ModelGap
    end.
  (** Indefinite arrays and maps: items up to the break octet. *)
  Fixpoint cb_items_break (fuel : nat) (b : bytes) : res (list val * bytes) :=
    match fuel with
    | O => Raise RecursionError
    | S f =>
        match b with
        | a :: r => if byte_Z a =? 255 then Ok ([], r)
                    else let! (x, r1) := dec b in let! (l, r2) := cb_items_break f r1 in Ok (x :: l, r2)
        | [] => Raise (CodecError "premature end of stream")
        end
    end.
  Fixpoint cb_pairs_break (fuel : nat) (d : dict) (b : bytes) : res (dict * bytes) :=
    match fuel with
    | O => Raise RecursionError
    | S f =>
        match b with
        | a :: r => if byte_Z a =? 255 then Ok (d, r)
                    else let! (k, r1) := dec b in
                         let! (x, r2) := dec r1 in
                         if hashable k then cb_pairs_break f (vset k x d) r2 else Raise ModelGap
        | [] => Raise (CodecError "premature end of stream")
        end
    end.
End Items.

(** Tags 2 and 3. *)
Definition cb_big (x : res (val * bytes)) (neg : bool) : res (val * bytes) :=
  let! (v, r) := x in
  match v with
  | VBytes [] => Raise (CodecError "invalid bignum value")
  | VBytes b => Ok (VInt (if neg then - of_be b - 1 else of_be b), r)
  | _ => Raise (CodecError "invalid bignum value")
  end.

(** Major type 7. *)
Definition cb_special (sub : Z) (r : bytes) : res (val * bytes) :=
  if sub <? 20 then Ok (VOther "CBORSimpleValue" true, r)
  else if sub =? 20 then Ok (VBool false, r)
  else if sub =? 21 then Ok (VBool true, r)
  else if sub =? 22 then Ok (VNone, r)
  else if sub =? 23 then Ok (VOther "undefined_type" false, r)
  else if sub =? 24 then let! (_, r') := take 1 r in Ok (VOther "CBORSimpleValue" true, r')
  else if sub =? 25 then let! (z, r') := take_int 2 r in Ok (VFloat (widen 5 10 z), r')
  else if sub =? 26 then let! (z, r') := take_int 4 r in Ok (VFloat (widen 8 23 z), r')
  else if sub =? 27 then let! (z, r') := take_int 8 r in Ok (VFloat z, r')
  else if sub =? 31 then Ok (VOther "break_marker_type" true, r)
  else Raise (CodecError "Undefined Reserved major type 7 subtype").

(** [fuel] bounds the nesting of items (Py_EnterRecursiveCall in the decoder's decode). *)
Fixpoint cb_dec (fuel : nat) (b : bytes) : res (val * bytes) :=
  match fuel with
  | O => Raise RecursionError
  | S f =>
      match b with
      | [] => Raise (CodecError "premature end of stream")
      | a :: r =>
          let c := byte_Z a in
          let major := c / 32 in
          let sub := c mod 32 in
          if major =? 0 then let! (z, r') := cb_uint sub r in Ok (VInt z, r')
          else if major =? 1 then let! (z, r') := cb_uint sub r in Ok (VInt (- z - 1), r')
          else if major =? 2 then let! (x, r') := cb_string (S (length r)) 2 sub r in Ok (VBytes x, r')
          else if major =? 3 then
            let! (x, r') := cb_string (S (length r)) 3 sub r in
            if utf8_valid x then Ok (VStr (decode_str x), r') else Raise (CodecError "error decoding unicode string")
          else if major =? 4 then
            let! (n, r') := cb_len sub r in
            let! (l, r'') := match n with
                             | Some z => mp_items (cb_dec f) (Z.to_nat z) r'
                             | None => cb_items_break (cb_dec f) (S (length r)) r'
                             end in
            Ok (VList l, r'')
          else if major =? 5 then
            let! (n, r') := cb_len sub r in
            let! (d, r'') := match n with
                             | Some z => cb_pairs (cb_dec f) (Z.to_nat z) [] r'
                             | None => cb_pairs_break (cb_dec f) (S (length r)) [] r'
                             end in
            Ok (VDict d, r'')
          else if major =? 6 then
            let! (tag, r') := cb_uint sub r in
            if tag =? 2 then cb_big (cb_dec f r') false
            else if tag =? 3 then cb_big (cb_dec f r') true
            else Raise ModelGap
          else cb_special sub r
      end
  end.

(** [loads] reads one item from the stream; octets after it are ignored.  With a limit on the nesting of items, and
    without: there are at most as many items as octets, and one more is looked for at the end. *)
Definition cb_loads_within (limit : nat) (b : bytes) : res val := let! (v, _) := cb_dec limit b in Ok v.
Definition cb_loads (b : bytes) : res val := cb_loads_within (S (length b)) b.

Definition cbor : codec := mkCodec cb_enc cb_loads.
