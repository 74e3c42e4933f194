(** * Serializer: wampproto/serializers/{json,msgpack,cbor}.py and payload.py, over a codec.  Definitions only.

    A codec stands for the pair of third-party functions ([json.dumps], [json.loads]), ([msgpack.dumps],
    [msgpack.loads]) or ([cbor2.dumps], [cbor2.loads]).  A JSON [str] is represented by its UTF-8 octets. *)
From Coq Require Import String Ascii List ZArith Bool.
From Verif Require Import PyBase Messages Parse.
Import ListNotations.
Local Open Scope Z_scope.

Record codec := mkCodec { dumps : val -> res bytes; loads : bytes -> res val }.

(** json.py:10-11, msgpack.py:10-11, cbor.py:10-11 *)
Definition serialize (c : codec) (m : message) : res bytes := dumps c (VList (marshal m)).
(** json.py:13-15, msgpack.py:13-15, cbor.py:13-15 *)
Definition deserialize (c : codec) (data : bytes) : res message :=
  let! wamp_message := loads c data in to_message wamp_message.

(** serializer.py:3, json.py:6, msgpack.py:6, cbor.py:6 *)
Definition NONE_SERIALIZER_ID := 0.
Definition JSON_SERIALIZER_ID := 1.
Definition MSGPACK_SERIALIZER_ID := 2.
Definition CBOR_SERIALIZER_ID := 3.

(** The three codecs in use. *)
Record codecs := mkCodecs { json_codec : codec; msgpack_codec : codec; cbor_codec : codec }.

(** [len(v)] *)
Definition utf8_continuation (a : ascii) : bool := let n := N_of_ascii a in (128 <=? n)%N && (n <? 192)%N.
Fixpoint str_len (s : string) : nat :=
  match s with
  | EmptyString => O
  | String a s' => if utf8_continuation a then str_len s' else S (str_len s')
  end.
Definition py_len (v : val) : res nat :=
  match v with
  | VList l => Ok (length l)
  | VDict d => Ok (length d)
  | VStr s => Ok (str_len s)
  | VBytes b => Ok (length b)
  | _ => Raise (TypeError "object has no len()")
  end.

(** [d[i]] on a dict with an int key. *)
Fixpoint dict_index (d : dict) (i : Z) : res val :=
  match d with
  | [] => Raise KeyError
  | (k, v) :: d' => if py_eq_int k i then Ok v else dict_index d' i
  end.
(** [arr[i]] for i >= 0.  The element of a str or bytes is neither a list nor a dict; which one does not matter. *)
Definition py_index (v : val) (i : nat) : res val :=
  match v with
  | VList l => match nth_error l i with Some x => Ok x | None => Raise IndexError end
  | VDict d => dict_index d (Z.of_nat i)
  | VStr _ => Ok (VStr "")
  | VBytes _ => Ok (VInt 0)
  | _ => Raise (TypeError "object is not subscriptable")
  end.

(** payload.py:10-27 [decode] *)
Definition decode (arr : val) : res (option (list val) * option dict) :=
  let! n := py_len arr in
  if (n =? 0)%nat then Ok (None, None)
  else if (2 <? n)%nat then Raise (ValueError ["too many args to decode"%string])
  else
    let! args := py_index arr 0 in
    match args with
    | VList a =>
        if (n =? 2)%nat then
          let! k := py_index arr 1 in
          match k with
          | VDict kw => Ok (Some a, Some kw)
          | _ => Raise (TypeError "kwargs element is not dict")
          end
        else Ok (Some a, None)
    | _ => Raise (TypeError "args element is not list")
    end.

(** payload.py:30-40 [prepare_for_encode] (the result is never None). *)
Definition prepare_for_encode (args : option (list val)) (kwargs : option dict) : list val :=
  (match args with Some a => [VList a] | None => [] end) ++
  (match kwargs with
   | Some k => (match args with None => [VList []] | Some _ => [] end) ++ [VDict k]
   | None => []
   end).

(** payload.py:43-48, 60-65, 77-82 *)
Definition encode_payload (c : codec) (args : option (list val)) (kwargs : option dict) : res (option bytes) :=
  let! b := dumps c (VList (prepare_for_encode args kwargs)) in Ok (Some b).

(** payload.py:51-57, 68-74, 85-91 *)
Definition decode_payload (c : codec) (b : bytes) : res (option (list val) * option dict) :=
  match b with
  | [] => Ok (None, None)
  | _ => let! arr := loads c b in decode arr
  end.

(** payload.py:94-105 *)
Definition deserialize_payload (cs : codecs) (serializer_id : Z) (payload : bytes)
  : res (option (list val) * option dict) :=
  if serializer_id =? NONE_SERIALIZER_ID then Ok (Some [VBytes payload], Some [])
  else if serializer_id =? JSON_SERIALIZER_ID then decode_payload (json_codec cs) payload
  else if serializer_id =? CBOR_SERIALIZER_ID then decode_payload (cbor_codec cs) payload
  else if serializer_id =? MSGPACK_SERIALIZER_ID then decode_payload (msgpack_codec cs) payload
  else Raise (ValueError ["serializer not recognized"%string]).

(** payload.py:108-130.  [bytearray] arguments are outside [val]. *)
Definition serialize_payload (cs : codecs) (serializer_id : Z) (args : option (list val)) (kwargs : option dict)
  : res (option bytes) :=
  if serializer_id =? NONE_SERIALIZER_ID then
    match args, kwargs with
    | None, None => Ok None
    | None, Some _ => Raise (TypeError "object of type 'NoneType' has no len()")
    | Some a, _ =>
        if negb (length a =? 1)%nat || (match kwargs with Some (_ :: _) => true | _ => false end) then
          Raise (ValueError ["serializer requires exactly 1 arg"%string])
        else match a with
             | VBytes b :: _ => Ok (Some b)
             | _ => Raise (TypeError "serializer requires bytes")
             end
    end
  else if serializer_id =? JSON_SERIALIZER_ID then encode_payload (json_codec cs) args kwargs
  else if serializer_id =? CBOR_SERIALIZER_ID then encode_payload (cbor_codec cs) args kwargs
  else if serializer_id =? MSGPACK_SERIALIZER_ID then encode_payload (msgpack_codec cs) args kwargs
  else Raise (ValueError ["serializer not recognized"%string]).
