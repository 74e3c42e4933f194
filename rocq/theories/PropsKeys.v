(** * PropsKeys: C135, what the JSON serializer does to dict keys that are not strings.

    [named v] is [v] with every key of its dicts replaced by the string that stands for it (SpecKeys.v). *)
From Coq Require Import String Ascii List ZArith Bool.
From Verif Require Import PyBase Encoding Messages Parse Serializer SpecSchema RoundTripFacts SerializerFacts CodecBase SpecCodec CodecFacts Codecs MsgPack Cbor CodecsFacts SpecKeys KeysFacts.
Import ListNotations.
Local Open Scope string_scope.
Local Open Scope Z_scope.
Local Open Scope list_scope.

(** The text, or the exception, is that of the value with strings as keys. *)
Theorem C135_text : forall v, everywhere python_value v -> dumps python_json (named v) = dumps python_json v.
Proof. exact named_text. Qed.
Print Assumptions C135_text.
Theorem C135_read : forall v b, everywhere python_value v -> json_value (named v) -> dumps python_json v = Ok b -> loads python_json b = Ok (named v).
Proof. exact named_read. Qed.
Print Assumptions C135_read.
Theorem C135_message : forall m m', everywhere python_value (VList (marshal m)) -> VList (marshal m') = named (VList (marshal m)) ->
  wf_message m' -> json_value (VList (marshal m')) -> exists b, serialize python_json m = Ok b /\ deserialize python_json b = Ok (normalise m').
Proof. exact named_message. Qed.
Print Assumptions C135_message.

Definition pub (d : dict) : message := Publish (mkPublish (PyInt 1) "a.b" (Some [VDict d]) None []).
Definition d1 : dict := [(VInt 1, VNone); (VBool true, VNone); (VNone, VNone); (VFloat 4609434218613702656, VDict [(VInt (-7), VStr "x")])].
Definition d2 : dict := [(VStr "1", VNone); (VStr "true", VNone); (VStr "null", VNone); (VStr "1.5", VDict [(VStr "-7", VStr "x")])].
Lemma pub_wf d : wf_message (pub d).
Proof. exists 1. split; [reflexivity|split; intros H; discriminate H]. Qed.
Definition written (c : codec) (m : message) : bytes := match serialize c m with Ok b => b | Raise _ => [] end.
Example C135_instance : named (VList (marshal (pub d1))) = VList (marshal (pub d2)) /\ wf_message (pub d2).
Proof. split; [vm_compute; reflexivity|apply pub_wf]. Qed.

(** So the receiver does not get what was sent. *)
Theorem C135_refuted : exists m m' b, wf_message m /\ serialize python_json m = Ok b /\ deserialize python_json b = Ok m' /\ m' <> normalise m.
Proof.
  exists (pub [(VInt 1, VNone)]), (pub [(VStr "1", VNone)]), (written python_json (pub [(VInt 1, VNone)])).
  split; [apply pub_wf|]. split; [vm_compute; reflexivity|]. split; [vm_compute; reflexivity|discriminate].
Qed.
Print Assumptions C135_refuted.
(** Entries are lost when two keys have the same name. *)
Theorem C135_lost_refuted : exists b,
  serialize python_json (pub [(VInt 1, VStr "x"); (VStr "1", VStr "y")]) = Ok b /\ deserialize python_json b = Ok (pub [(VStr "1", VStr "y")]).
Proof. exists (written python_json (pub [(VInt 1, VStr "x"); (VStr "1", VStr "y")])). split; vm_compute; reflexivity. Qed.
Print Assumptions C135_lost_refuted.
(** The other serializers: CBOR keeps the key, MsgPack's receiver refuses it. *)
Theorem C135_others : exists b c,
  serialize cbor (pub [(VInt 1, VNone)]) = Ok b /\ deserialize cbor b = Ok (pub [(VInt 1, VNone)]) /\
  serialize msgpack (pub [(VInt 1, VNone)]) = Ok c /\ exists t, deserialize msgpack c = Raise (ValueError [t]).
Proof.
  exists (written cbor (pub [(VInt 1, VNone)])), (written msgpack (pub [(VInt 1, VNone)])).
  split; [vm_compute; reflexivity|]. split; [vm_compute; reflexivity|]. split; [vm_compute; reflexivity|].
  destruct (deserialize msgpack (written msgpack (pub [(VInt 1, VNone)]))) as [m|e] eqn:E; vm_compute in E; [discriminate E|]. injection E as <-. eexists. reflexivity.
Qed.
Print Assumptions C135_others.
