(** * SpecSpelling: octets that stand for a value in the format of a serializer.  Definitions only.

    The formats are those of SpecCbor, SpecMsgPack and SpecJson; a value has many spellings in each. *)
From Coq Require Import List ZArith Bool.
From Verif Require Import PyBase Messages Serializer MsgPack Cbor Json JsonBytes Float Codecs SpecFormat SpecCbor SpecMsgPack SpecJson
  Session Joiner Broker Dealer Network ByteNetwork HostileNetwork.
Import ListNotations.
Local Open Scope Z_scope.

Inductive spelling : codec -> val -> bytes -> Prop :=
| spelling_cbor v b : SpecCbor.item false v b -> spelling cbor v b
| spelling_msgpack v b : SpecMsgPack.item 1024 v b -> spelling msgpack v b
| spelling_json v t b : chars t (map value b) -> document false v t -> spelling python_json v b
| spelling_json_bytes v t b : chars t (map value b) -> document false v t -> spelling json_bytes v b.

(** Two executions in which clients write the same values, but spell them differently.  [codec_of] is the serializer that a
    session joins with. *)
Inductive respelled (codec_of : Z -> codec) : list haction -> list haction -> Prop :=
| respelled_end : respelled codec_of [] []
| respelled_join d acts acts' : respelled codec_of acts acts' ->
    let a := HAct (WJoin d (codec_of (pyint_Z (det_session d)))) in respelled codec_of (a :: acts) (a :: acts')
| respelled_same a acts acts' : (forall d c, a <> WJoin d c) -> respelled codec_of acts acts' -> respelled codec_of (HAct a :: acts) (HAct a :: acts')
| respelled_put s v b b' acts acts' : spelling (codec_of s) v b -> spelling (codec_of s) v b' -> respelled codec_of acts acts' ->
    respelled codec_of (HPut s b :: acts) (HPut s b' :: acts')
| respelled_any s b acts acts' : respelled codec_of acts acts' -> respelled codec_of (HPut s b :: acts) (HPut s b :: acts').
(** What somebody outside sees of the clients: everything but the octets still on their way to the router. *)
Definition visible (n : bnet) : list (Z * (codec * session * list bytes)) :=
  map (fun '(s, cl) => (s, (bc_codec cl, bc_session cl, bc_down cl))) (bn_clients n).
