(** * MsgPack: msgpack.dumps and msgpack.loads, as called by wampproto/serializers/msgpack.py and payload.py (no options).
    Definitions only.

    The library is not part of /repo; this follows msgpack 1.1.1 (the version in uv.lock): _packer.pyx, _unpacker.pyx and
    unpack_template.h.  Not modelled: objects outside [val]. *)
From Coq Require Import String Ascii List ZArith Bool.
From Verif Require Import PyBase Rawsocket Encoding Utf8 CodecBase Serializer.
Import ListNotations.
Local Open Scope Z_scope.

Definition too_large {A} : res A := Raise (ValueError ["object is too large"%string]).

Definition mp_int (z : Z) : res bytes :=
  if 0 <=? z then
    if z <? 128 then Ok [byte_of z]
    else if z <? 2 ^ 8 then Ok (byte_of 204 :: to_be 1 z)
    else if z <? 2 ^ 16 then Ok (byte_of 205 :: to_be 2 z)
    else if z <? 2 ^ 32 then Ok (byte_of 206 :: to_be 4 z)
    else if z <? 2 ^ 64 then Ok (byte_of 207 :: to_be 8 z)
    else Raise (OverflowError "Integer value out of range")
  else if -32 <=? z then Ok [byte_of (256 + z)]
  else if - 2 ^ 7 <=? z then Ok (byte_of 208 :: to_be 1 (2 ^ 8 + z))
  else if - 2 ^ 15 <=? z then Ok (byte_of 209 :: to_be 2 (2 ^ 16 + z))
  else if - 2 ^ 31 <=? z then Ok (byte_of 210 :: to_be 4 (2 ^ 32 + z))
  else if - 2 ^ 63 <=? z then Ok (byte_of 211 :: to_be 8 (2 ^ 64 + z))
  else Raise (OverflowError "Integer value out of range").

Definition mp_str_head (n : Z) : res bytes :=
  if n <? 32 then Ok [byte_of (160 + n)]
  else if n <? 2 ^ 8 then Ok (byte_of 217 :: to_be 1 n)
  else if n <? 2 ^ 16 then Ok (byte_of 218 :: to_be 2 n)
  else if n <? 2 ^ 32 then Ok (byte_of 219 :: to_be 4 n)
  else too_large.
Definition mp_bin_head (n : Z) : res bytes :=
  if n <? 2 ^ 8 then Ok (byte_of 196 :: to_be 1 n)
  else if n <? 2 ^ 16 then Ok (byte_of 197 :: to_be 2 n)
  else if n <? 2 ^ 32 then Ok (byte_of 198 :: to_be 4 n)
  else too_large.
Definition mp_array_head (n : Z) : res bytes :=
  if n <? 16 then Ok [byte_of (144 + n)]
  else if n <? 2 ^ 16 then Ok (byte_of 220 :: to_be 2 n)
  else if n <? 2 ^ 32 then Ok (byte_of 221 :: to_be 4 n)
  else too_large.
Definition mp_map_head (n : Z) : res bytes :=
  if n <? 16 then Ok [byte_of (128 + n)]
  else if n <? 2 ^ 16 then Ok (byte_of 222 :: to_be 2 n)
  else if n <? 2 ^ 32 then Ok (byte_of 223 :: to_be 4 n)
  else too_large.

Definition zlen {A} (l : list A) : Z := Z.of_nat (length l).
Definition cat (x y : res bytes) : res bytes := let! a := x in let! b := y in Ok (a ++ b).

Fixpoint mp_pack (nest_limit : Z) (v : val) : res bytes :=
  if nest_limit <? 0 then Raise (ValueError ["recursion limit exceeded."%string])
  else
    match v with
    | VNone => Ok [byte_of 192]
    | VBool b => Ok [byte_of (if b then 195 else 194)]
    | VInt z => mp_int z
    | VFloat f => Ok (byte_of 203 :: to_be 8 f)
    | VStr s => let! x := strict_encode s in cat (mp_str_head (zlen x)) (Ok x)
    | VBytes b => cat (mp_bin_head (zlen b)) (Ok b)
    | VList l =>
        cat (mp_array_head (zlen l))
          ((fix items l := match l with [] => Ok [] | x :: l' => cat (mp_pack (nest_limit - 1) x) (items l') end) l)
    | VDict d =>
        cat (mp_map_head (zlen d))
          ((fix pairs d := match d with
                           | [] => Ok []
                           | (k, x) :: d' => cat (mp_pack (nest_limit - 1) k) (cat (mp_pack (nest_limit - 1) x) (pairs d'))
                           end) d)
    | VOther _ _ => Raise ModelGap
    end.

Definition mp_dumps (v : val) : res bytes := mp_pack 511 v.

(** ** Decoder.  [lim] is the length of the whole input: unpackb limits every announced length by it. *)
Definition mp_raw (lim n : Z) (b : bytes) : res (bytes * bytes) :=
  if lim <? n then Raise (ValueError ["length exceeds limit"%string]) else take (Z.to_nat n) b.
Definition mp_str (lim n : Z) (b : bytes) : res (val * bytes) :=
  let! (x, r) := mp_raw lim n b in
  if utf8_valid x then Ok (VStr (decode_str x), r) else Raise (ValueError ["invalid utf-8"%string]).
Definition mp_bin (lim n : Z) (b : bytes) : res (val * bytes) := let! (x, r) := mp_raw lim n b in Ok (VBytes x, r).
(** Extension types become ExtType or Timestamp objects. *)
Definition mp_ext (lim n : Z) (b : bytes) : res (val * bytes) :=
  let! (_, r) := take 1 b in let! (_, r') := mp_raw lim n r in Ok (VOther "ExtType" true, r').
Definition is_text (v : val) : bool := match v with VStr _ | VBytes _ => true | _ => false end.

Section Items.
  Context (dec : bytes -> res (val * bytes)).
  Fixpoint mp_items (n : nat) (b : bytes) : res (list val * bytes) :=
    match n with
    | O => Ok ([], b)
    | S n' => let! (x, r) := dec b in let! (l, r') := mp_items n' r in Ok (x :: l, r')
    end.
  (** strict_map_key: only str and bytes keys. *)
  Fixpoint mp_pairs (n : nat) (d : dict) (b : bytes) : res (dict * bytes) :=
    match n with
    | O => Ok (d, b)
    | S n' =>
        let! (k, r) := dec b in
        if is_text k then let! (x, r') := dec r in mp_pairs n' (vset k x d) r'
        else Raise (ValueError ["key is not allowed for map key"%string])
    end.
  Definition mp_array (lim n : Z) (b : bytes) : res (val * bytes) :=
    if lim <? n then Raise (ValueError ["length exceeds limit"%string])
    else let! (l, r) := mp_items (Z.to_nat n) b in Ok (VList l, r).
  Definition mp_map (lim n : Z) (b : bytes) : res (val * bytes) :=
    if lim / 2 <? n then Raise (ValueError ["length exceeds limit"%string])
    else let! (d, r) := mp_pairs (Z.to_nat n) [] b in Ok (VDict d, r).
End Items.

(** The unpacker's stack: [f] is the number of places left; a container takes one, even an empty one. *)
Definition mp_stack_error {A} : res A := Raise (ValueError ["StackError"%string]).
Definition mp_nest {A} (f : nat) (x : res A) : res A := match f with O => mp_stack_error | S _ => x end.

(** At [fuel] = S f, [f] more containers fit on the stack. *)
Fixpoint mp_unpack (fuel : nat) (lim : Z) (b : bytes) : res (val * bytes) :=
  match fuel with
  | O => mp_stack_error
  | S f =>
      match b with
      | [] => Raise (ValueError ["Unpack failed: incomplete input"%string])
      | a :: r =>
          let c := byte_Z a in
          let uint n := let! (z, r') := take_int n r in Ok (VInt z, r') in
          let sint n := let! (z, r') := take_int n r in Ok (VInt (signed n z), r') in
          let sized n (k : Z -> bytes -> res (val * bytes)) := let! (z, r') := take_int n r in k z r' in
          let dec := mp_unpack f lim in
          if c <? 128 then Ok (VInt c, r)
          else if c <? 144 then mp_nest f (mp_map dec lim (c - 128) r)
          else if c <? 160 then mp_nest f (mp_array dec lim (c - 144) r)
          else if c <? 192 then mp_str lim (c - 160) r
          else if c =? 192 then Ok (VNone, r)
          else if c =? 193 then Raise (ValueError ["Unpack failed: format error"%string])
          else if c =? 194 then Ok (VBool false, r)
          else if c =? 195 then Ok (VBool true, r)
          else if c =? 196 then sized 1%nat (mp_bin lim)
          else if c =? 197 then sized 2%nat (mp_bin lim)
          else if c =? 198 then sized 4%nat (mp_bin lim)
          else if c =? 199 then sized 1%nat (mp_ext lim)
          else if c =? 200 then sized 2%nat (mp_ext lim)
          else if c =? 201 then sized 4%nat (mp_ext lim)
          else if c =? 202 then let! (z, r') := take_int 4 r in Ok (VFloat (widen 8 23 z), r')
          else if c =? 203 then let! (z, r') := take_int 8 r in Ok (VFloat z, r')
          else if c =? 204 then uint 1%nat
          else if c =? 205 then uint 2%nat
          else if c =? 206 then uint 4%nat
          else if c =? 207 then uint 8%nat
          else if c =? 208 then sint 1%nat
          else if c =? 209 then sint 2%nat
          else if c =? 210 then sint 4%nat
          else if c =? 211 then sint 8%nat
          else if c =? 212 then mp_ext lim 1 r
          else if c =? 213 then mp_ext lim 2 r
          else if c =? 214 then mp_ext lim 4 r
          else if c =? 215 then mp_ext lim 8 r
          else if c =? 216 then mp_ext lim 16 r
          else if c =? 217 then sized 1%nat (mp_str lim)
          else if c =? 218 then sized 2%nat (mp_str lim)
          else if c =? 219 then sized 4%nat (mp_str lim)
          else if c =? 220 then sized 2%nat (fun n r' => mp_nest f (mp_array dec lim n r'))
          else if c =? 221 then sized 4%nat (fun n r' => mp_nest f (mp_array dec lim n r'))
          else if c =? 222 then sized 2%nat (fun n r' => mp_nest f (mp_map dec lim n r'))
          else if c =? 223 then sized 4%nat (fun n r' => mp_nest f (mp_map dec lim n r'))
          else Ok (VInt (c - 256), r)
      end
  end.

(** MSGPACK_EMBED_STACK_SIZE *)
Definition MP_STACK : nat := 1024.
Definition mp_loads (b : bytes) : res val :=
  match mp_unpack (S MP_STACK) (zlen b) b with
  | Ok (v, []) => Ok v
  | Ok _ => Raise (ValueError ["unpack(b) received extra data."%string])
  | Raise (CodecError _) => Raise (ValueError ["Unpack failed: incomplete input"%string])
  | Raise e => Raise e
  end.

Definition msgpack : codec := mkCodec mp_dumps mp_loads.
