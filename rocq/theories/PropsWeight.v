(** * PropsWeight: C126, what is decoded takes no more memory than the octets it came in. *)
From Coq Require Import String Ascii List ZArith Bool Lia.
From Verif Require Import PyBase Encoding Messages Parse Serializer MsgPack Cbor Json JsonBytes Float Codecs SpecFormat SpecSchema RoundTripFacts SpecWeight WeightFacts.
Import ListNotations.
Local Open Scope Z_scope.

Theorem C126_value : forall c b v, c = cbor \/ c = msgpack \/ c = python_json -> loads c b = Ok v -> weight v <= count b.
Proof. exact (fun c b v C => python_light c C b v). Qed.
Print Assumptions C126_value.
(** The list a message is parsed from; and the list that it is marshalled to, unless parsing leaves out some of it. *)
Theorem C126_message : forall c b m, c = cbor \/ c = msgpack \/ c = python_json -> deserialize c b = Ok m ->
  (exists l, to_message (VList l) = Ok m /\ weight (VList l) <= count b) /\
  (filtered_class (class_of m) = false -> weight (VList (marshal m)) <= count b).
Proof. exact message_weight. Qed.
Print Assumptions C126_message.
Theorem C126_payload : forall c b a k, c = cbor \/ c = msgpack \/ c = python_json -> b <> [] ->
  decode_payload c b = Ok (a, k) -> args_weight a + kwargs_weight k < count b.
Proof. exact payload_weight. Qed.
Print Assumptions C126_payload.

(** The bound is met exactly by a SUBSCRIBE in MessagePack. *)
Example C126_instance :
  let b := map byte_of [148; 32; 1; 128; 161; 116] in let v := VList [VInt 32; VInt 1; VDict []; VStr "t"] in
  loads msgpack b = Ok v /\ weight v = 6 /\ count b = 6 /\ deserialize msgpack b = Ok (Subscribe (mkSubscribe (PyInt 1) "t" [])).
Proof. cbv zeta. repeat split. Qed.
Example C126_payload_instance :
  let b := encode_str "[[1, 2], {""a"": null}]" in
  decode_payload python_json b = Ok (Some [VInt 1; VInt 2], Some [(VStr "a", VNone)]) /\
  args_weight (Some [VInt 1; VInt 2]) + kwargs_weight (Some [(VStr "a", VNone)]) = 7 /\ count b = 21.
Proof. cbv zeta. repeat split; vm_compute; reflexivity. Qed.
