(** * Codecs: the three serializers with their concrete codecs.  Definitions only. *)
From Coq Require Import List.
From Verif Require Import Serializer MsgPack Cbor Json CodecOpen JsonBytes Float.

(** wampproto/serializers/json.py 9-16 calls [json.dumps]/[json.loads], msgpack.py 9-16 [msgpack.dumps]/[msgpack.loads],
    cbor.py 9-16 [cbor2.dumps]/[cbor2.loads]; payload.py 42-91 the same functions, where
    [json.loads] is given bytes. *)
Definition python_json : codec := json python_floats.
Definition python_codecs : codecs := {| json_codec := json_bytes; msgpack_codec := msgpack; cbor_codec := cbor |}.

(** One of the three, which raise ModelGap on what they leave out. *)
Definition is_closed_codec (c : codec) : Prop := c = python_json \/ c = msgpack \/ c = cbor.
(** One of the three; the libraries may do anything with what Cbor.v, MsgPack.v and Json.v leave out. *)
Definition is_python_codec (c : codec) : Prop :=
  c = python_json \/ c = msgpack \/ c = cbor \/ exists U, c = json_open U python_floats \/ c = msgpack_open U \/ c = cbor_open U.

(** The same with Python's recursion limit, of which [limit] levels are left when [loads] is called. *)
Definition json_within (limit : nat) : codec := mkCodec (js_dumps python_floats) (js_loads_within python_floats limit).
Definition cbor_within (limit : nat) : codec := mkCodec cb_enc (cb_loads_within limit).
