(** * PropsLimit: C111, C112; refutation of C81 under a recursion limit. *)
From Coq Require Import String Ascii List ZArith Bool Lia.
From Verif Require Import PyBase Rawsocket Encoding Utf8 Messages SpecSchema Serializer CodecBase SpecCodec MsgPack Cbor Json JsonBytes SpecJsonBytes SpecJsonText JsonTextFacts Float Codecs CodecsFacts LimitFacts.
Import ListNotations.
Local Open Scope Z_scope.

(** ** C111: with Python's recursion limit, whatever it is, [deserialize] gives what it would give without, or RecursionError. *)
Theorem C111_json : forall limit b,
  deserialize (json_within limit) b = deserialize python_json b \/ deserialize (json_within limit) b = Raise RecursionError.
Proof. exact json_limited. Qed.
Print Assumptions C111_json.
Theorem C111_cbor : forall limit b,
  deserialize (cbor_within limit) b = deserialize cbor b \/ deserialize (cbor_within limit) b = Raise RecursionError.
Proof. exact cbor_limited. Qed.
Print Assumptions C111_cbor.

(** A serialized message is too deep exactly if it has more lists and dicts in each other than the limit. *)
Theorem C111_json_exact : forall limit m b, json_value (VList (marshal m)) -> serialize python_json m = Ok b ->
  deserialize (json_within limit) b = if (levels (VList (marshal m)) <=? limit)%nat then deserialize python_json b else Raise RecursionError.
Proof. exact json_within_exact. Qed.
Print Assumptions C111_json_exact.
Theorem C111_cbor_enough : forall limit m b, cbor_value (VList (marshal m)) -> serialize cbor m = Ok b ->
  (depth (VList (marshal m)) + 2 <= limit)%nat -> deserialize (cbor_within limit) b = deserialize cbor b.
Proof. exact cbor_within_deep. Qed.
Print Assumptions C111_cbor_enough.

(** So under any limit a peer can make [deserialize] raise RecursionError, which is none of the documented exceptions: with
    JSON by a message that is fine without limit. *)
Theorem C111_json_raises : forall limit, exists m b, class_of m = CEvent /\ serialize python_json m = Ok b /\ deserialize python_json b = Ok m /\
  deserialize (json_within limit) b = Raise RecursionError.
Proof. exact json_too_deep. Qed.
Print Assumptions C111_json_raises.
Theorem C111_cbor_raises : forall limit n r, (limit <= n)%nat -> deserialize (cbor_within limit) (repeat (byte_of 129) n ++ r) = Raise RecursionError.
Proof. exact cbor_nest_raises. Qed.
Print Assumptions C111_cbor_raises.

Theorem C81_recursion_refuted : forall limit,
  ~ (forall b e, deserialize (json_within limit) b = Raise e -> parse_error e) /\
  ~ (forall b e, deserialize (cbor_within limit) b = Raise e -> parse_error e \/ exists m, e = CodecError m).
Proof.
  intros limit. split.
  - intros H. destruct (json_too_deep limit) as (m & b & _ & _ & _ & R). exact (H b _ R).
  - intros H. destruct (H _ _ (cbor_nest_raises limit limit [] (le_n _))) as [[]|[m [=]]].
Qed.
Print Assumptions C81_recursion_refuted.

(** The MsgPack unpacker has its own limit, and a ValueError for what exceeds it. *)
Theorem C111_msgpack : forall n, loads msgpack (repeat (byte_of 145) n ++ [byte_of 192]) =
  if (n <=? 1024)%nat then Ok (Nat.iter n (fun v => VList [v]) VNone) else Raise (ValueError ["StackError"%string]).
Proof. exact mp_loads_nest. Qed.
Print Assumptions C111_msgpack.

Example C111_instance :
  let m := Event (mkEvent (PyInt 1) (PyInt 2) (Some [VList [VList [VInt 7]]]) None []) in
  let b := match serialize python_json m with Ok b => b | Raise _ => [] end in
  let b' := match serialize cbor m with Ok b => b | Raise _ => [] end in
  levels (VList (marshal m)) = 4%nat /\ depth (VList (marshal m)) = 4%nat /\
  deserialize (json_within 4) b = Ok m /\ deserialize (json_within 3) b = Raise RecursionError /\
  deserialize (cbor_within 6) b' = Ok m /\ deserialize (cbor_within 3) b' = Raise RecursionError.
Proof. vm_compute. repeat split; reflexivity. Qed.

(** ** C112: [deserialize] of the JSON serializer on bytes.  A serialized message is understood in each of the encodings UTF-8,
    UTF-16 and UTF-32, either byte order, with and without byte-order mark. *)
Theorem C112_encodings : forall m b e, json_value (VList (marshal m)) -> serialize python_json m = Ok b ->
  deserialize json_bytes (encode_as e b) = deserialize python_json b.
Proof. exact json_bytes_same. Qed.
Print Assumptions C112_encodings.
(** Every text that gives a message gives the same message as UTF-8 bytes. *)
Theorem C112_text : forall b m, deserialize python_json b = Ok m -> deserialize json_bytes b = Ok m.
Proof. exact json_bytes_text. Qed.
Print Assumptions C112_text.
(** ... and in each of the other encodings; only UTF-16 cannot carry a high surrogate directly before a low one. *)
Theorem C112_unicode : forall b t e m, str_points b = Some t -> encodable_as e t ->
  deserialize python_json b = Ok m -> deserialize json_bytes (encode_text e t) = Ok m.
Proof. exact json_text_encoded. Qed.
Print Assumptions C112_unicode.
(** Whatever the bytes, there is a message or a documented exception. *)
Theorem C112_errors : forall b e, deserialize json_bytes b = Raise e -> parse_error e.
Proof. exact json_bytes_error. Qed.
Print Assumptions C112_errors.
Example C112_instance :
  let m := Goodbye (mkGoodbye [] "wamp.close.normal") in
  let b := match serialize python_json m with Ok b => b | Raise _ => [] end in
  json_value (VList (marshal m)) /\ length (encode_as (Utf16Bom true) b) = 58%nat /\
  deserialize json_bytes (encode_as (Utf16Bom true) b) = Ok m /\ deserialize json_bytes (encode_as (Utf32 false) b) = Ok m /\
  (exists t, deserialize json_bytes (map byte_of [255; 254; 91]) = Raise (ValueError t)).
Proof.
  cbv zeta. split; [vm_compute; repeat split; try constructor; discriminate|]. vm_compute. repeat split. eexists. reflexivity.
Qed.
(** [[6,{},"é😀"]] with the characters themselves, not escaped. *)
Example C112_unicode_instance :
  let t := [91; 54; 44; 123; 125; 44; 34; 233; 128512; 34; 93] in
  let m := Goodbye (mkGoodbye [] (decode_str (utf8_encode [233; 128512]))) in
  str_points (utf8_encode t) = Some t /\ encodable_as (Utf16 true) t /\ deserialize python_json (utf8_encode t) = Ok m /\
  length (encode_text (Utf16Bom true) t) = 26%nat /\ length (encode_text (Utf32 false) t) = 44%nat /\
  deserialize json_bytes (encode_text (Utf16 true) t) = Ok m.
Proof.
  cbv zeta. split; [vm_compute; reflexivity|]. split; [|vm_compute; repeat split].
  intros a h l b E H L. repeat (destruct a as [|? a]; [injection E; intros; subst; lia|injection E as _ E]). destruct a; discriminate.
Qed.
