(** * PropsPayload: C124, which payloads are decoded. *)
From Coq Require Import String Ascii List ZArith Bool Lia.
From Verif Require Import PyBase Encoding Messages Serializer SpecCodec Codecs SpecFormat SpecCbor SpecMsgPack SpecJson JsonFormat SpecPayload PayloadFacts.
Import ListNotations.
Local Open Scope Z_scope.

Theorem C124_decode : forall v a k, everywhere python_value v -> decode v = Ok (a, k) <-> payload v a k.
Proof. exact decode_exact. Qed.
Print Assumptions C124_decode.
(** Everything else is refused: a KeyError only for dicts. *)
Theorem C124_errors : forall v e, everywhere python_value v -> decode v = Raise e ->
  too_long v /\ value_error e \/ lacks_key v /\ e = KeyError \/ ~ too_long v /\ type_error e.
Proof. exact decode_error. Qed.
Print Assumptions C124_errors.
Theorem C124_cbor : forall b a k, deserialize_payload python_codecs 3 b = Ok (a, k) <->
  (b = [] /\ a = None /\ k = None) \/ (exists c r v, b = c ++ r /\ SpecCbor.item true v c /\ payload v a k).
Proof. exact cbor_payload. Qed.
Print Assumptions C124_cbor.
Theorem C124_msgpack : forall b a k, deserialize_payload python_codecs 2 b = Ok (a, k) <->
  (b = [] /\ a = None /\ k = None) \/ (exists v, SpecMsgPack.item 1024 v b /\ payload v a k).
Proof. exact msgpack_payload. Qed.
Print Assumptions C124_msgpack.
(** JSON, given as the UTF-8 octets of a text. *)
Theorem C124_json : forall t b v, chars t (map value b) -> document true v t ->
  forall a k, deserialize_payload python_codecs 1 b = Ok (a, k) <-> payload v a k.
Proof. exact json_payload. Qed.
Print Assumptions C124_json.
(** Not only ValueError and TypeError: a JSON object raises KeyError.  Not only arrays: a map with the key 0 is a payload. *)
Theorem C124_arrays_refuted :
  deserialize_payload python_codecs 1 (encode_str "{""a"":1}") = Raise KeyError /\
  exists b d, SpecCbor.item false (VDict d) b /\ deserialize_payload python_codecs 3 b = Ok (Some [VInt 7], None).
Proof. exact not_only_arrays. Qed.
Print Assumptions C124_arrays_refuted.

Example C124_instance :
  let v := VDict [(VBool true, VDict []); (VFloat (2 ^ 63), VList [VNone])] in
  everywhere python_value v /\ payload v (Some [VNone]) (Some []) /\ decode v = Ok (Some [VNone], Some []).
Proof.
  cbv zeta. assert (P : everywhere python_value (VDict [(VBool true, VDict []); (VFloat (2 ^ 63), VList [VNone])])) by (cbn; repeat split; lia).
  split; [exact P|]. split; [apply decode_exact; [exact P|]|]; vm_compute; reflexivity.
Qed.
Example C124_errors_instance :
  too_long (VStr "abc") /\ decode (VStr "abc") = Raise (ValueError ["too many args to decode"%string]) /\
  lacks_key (VDict [(VInt 1, VDict [])]) /\ decode (VDict [(VInt 1, VDict [])]) = Raise KeyError.
Proof.
  split; [exists 3; split; [apply (size_str [97; 98; 99] "abc"); apply str_of_iff; split; reflexivity|lia]|]. split; [reflexivity|]. split; [|reflexivity].
  exists [(VInt 1, VDict [])], 0. split; [reflexivity|]. split; [unfold count; cbn; lia|]. split; [unfold count; cbn; lia|]. intros x H.
  apply (dict_index_iff 0 x [(VInt 1, VDict [])]) in H; [discriminate H|]. repeat constructor.
Qed.
