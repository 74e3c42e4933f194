(** * PropsSerializer: property theorems C10-C13 (over any codec). *)
From Coq Require Import String Ascii List ZArith Bool Lia.
From Verif Require Import PyBase Messages Parse Serializer SpecSchema SerializerFacts.
Import ListNotations.
Local Open Scope Z_scope.

(** C10: whatever the codec, if it round-trips the marshalled value then the serializer round-trips the message. *)
Theorem C10_serializer_round_trip : forall c m,
  wf_message m -> codec_round_trips c (VList (marshal m)) ->
  exists b, serialize c m = Ok b /\ deserialize c b = Ok (normalise m).
Proof. exact serializer_round_trip. Qed.
Print Assumptions C10_serializer_round_trip.

(** C11 *)
Theorem C11_payload_round_trip : forall cs id c args kwargs,
  codec_of cs id = Some c -> codec_round_trips c (VList (prepare_for_encode args kwargs)) ->
  exists b, serialize_payload cs id args kwargs = Ok (Some b) /\
            deserialize_payload cs id b = Ok (norm_args args kwargs, kwargs).
Proof. exact payload_round_trip. Qed.
Print Assumptions C11_payload_round_trip.

Theorem C11_payload_encodes : forall cs id c args kwargs,
  codec_of cs id = Some c ->
  serialize_payload cs id args kwargs =
    (let! b := dumps c (VList (match args, kwargs with
                               | None, None => []
                               | Some a, None => [VList a]
                               | None, Some k => [VList []; VDict k]
                               | Some a, Some k => [VList a; VDict k]
                               end)) in Ok (Some b)).
Proof. exact payload_encodes. Qed.
Print Assumptions C11_payload_encodes.

Theorem C11_unknown_serializer : forall cs id, id < 0 \/ 3 < id ->
  (forall args kwargs, exists s, serialize_payload cs id args kwargs = Raise (ValueError s)) /\
  (forall b, exists s, deserialize_payload cs id b = Raise (ValueError s)).
Proof. exact unknown_serializer. Qed.
Print Assumptions C11_unknown_serializer.

(** The hypotheses are met by a toy codec that knows just one value. *)
Example C10_C11_hypotheses :
  let v := VList [VList []; VDict [(VStr "k", VInt 7)]] in
  let m := Goodbye (mkGoodbye [(VStr "k", VInt 7)] "wamp.close.normal") in
  let toy x := {| dumps := fun _ => Ok ["x"%char]; loads := fun _ => Ok x |} in
  let cs := {| json_codec := toy v; msgpack_codec := toy v; cbor_codec := toy v |} in
  wf_message m /\ codec_round_trips (toy (VList (marshal m))) (VList (marshal m)) /\
  codec_of cs 2 = Some (toy v) /\ codec_round_trips (toy v) (VList (prepare_for_encode None (Some [(VStr "k", VInt 7)]))).
Proof.
  cbv zeta. split; [exact I|]. split; [|split; [reflexivity|]];
    exists ["x"%char]; (split; [reflexivity|]); (split; [discriminate|reflexivity]).
Qed.

(** C12 *)
Theorem C12_none_payload : forall cs args kwargs,
  (forall b, serialize_payload cs 0 args kwargs = Ok (Some b) <->
     args = Some [VBytes b] /\ (kwargs = None \/ kwargs = Some [])) /\
  (serialize_payload cs 0 args kwargs = Ok None <-> args = None /\ kwargs = None) /\
  (forall e, serialize_payload cs 0 args kwargs = Raise e -> (exists s, e = ValueError s) \/ (exists s, e = TypeError s)) /\
  (forall b, deserialize_payload cs 0 b = Ok (Some [VBytes b], Some [])).
Proof. exact none_payload. Qed.
Print Assumptions C12_none_payload.

(** C13 *)
Theorem C13_decode : forall l,
  (forall a k, decode (VList l) = Ok (a, k) <->
     (l = [] /\ a = None /\ k = None) \/
     (exists x, l = [VList x] /\ a = Some x /\ k = None) \/
     (exists x d, l = [VList x; VDict d] /\ a = Some x /\ k = Some d)) /\
  ((exists s, decode (VList l) = Raise (ValueError s)) <-> (2 < length l)%nat) /\
  (forall e, decode (VList l) = Raise e -> (exists s, e = ValueError s) \/ (exists s, e = TypeError s)).
Proof. exact decode_spec. Qed.
Print Assumptions C13_decode.

Example C13_cases :
  decode (VList [VList [VInt 1]; VDict []]) = Ok (Some [VInt 1], Some []) /\
  decode (VList [VInt 1]) = Raise (TypeError "args element is not list") /\
  decode (VList [VList []; VDict []; VNone]) = Raise (ValueError ["too many args to decode"%string]).
Proof. repeat split. Qed.
