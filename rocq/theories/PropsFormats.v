(** * PropsFormats: C121-C123, the serializers follow the standards of their formats. *)
From Coq Require Import String Ascii List ZArith Bool Lia.
From Verif Require Import PyBase Encoding Messages Parse Serializer SpecSchema RoundTripFacts CodecBase SpecCodec MsgPack Cbor Json Float Codecs
  SpecFormat FormatFacts SpecCbor SpecMsgPack SpecJson CborFormat MsgPackFormat JsonFormat FormatMessages.
Import ListNotations.
Local Open Scope Z_scope.

Definition octets (l : list Z) : bytes := map octet l.

(** ** C121: CBOR, RFC 8949. *)
(** Whatever encoding of a value the sender chose, it is read, and as that value. *)
Theorem C121_reads : forall v b, SpecCbor.item false v b -> loads cbor b = Ok v.
Proof. exact cbor_reads_item. Qed.
Print Assumptions C121_reads.
(** What is read begins with an encoding of the value, in the slightly larger language of cbor2. *)
Theorem C121_exact : forall b v, loads cbor b = Ok v <-> exists c r, b = c ++ r /\ SpecCbor.item true v c.
Proof. exact cbor_exact. Qed.
Print Assumptions C121_exact.
Theorem C121_writes : forall v b, cbor_value v -> dumps cbor v = Ok b -> SpecCbor.item false v b.
Proof. exact cbor_writes. Qed.
Print Assumptions C121_writes.
Theorem C121_message : forall m b, wf_message m -> SpecCbor.item false (VList (marshal m)) b -> deserialize cbor b = Ok (normalise m).
Proof. exact cbor_message. Qed.
Print Assumptions C121_message.
(** No octets stand for two values. *)
Theorem C121_unambiguous : forall v w b, SpecCbor.item true v b -> SpecCbor.item true w b -> v = w.
Proof. exact cbor_unambiguous. Qed.
Print Assumptions C121_unambiguous.
(** GOODBYE as another implementation may write it: array of unknown length, integer in four octets, open map, text in two
    chunks. *)
Definition goodbye : message := Goodbye (mkGoodbye [] "a.b").
Example C121_instance :
  let b := octets ([159; 26; 0; 0; 0; 6; 191; 255; 127; 97; 97; 120; 2; 46; 98; 255; 255]) in
  wf_message goodbye /\ SpecCbor.item false (VList (marshal goodbye)) b /\ deserialize cbor b = Ok goodbye /\
  serialize cbor goodbye = Ok (octets [131; 6; 160; 99; 97; 46; 98]).
Proof.
  cbv zeta. split; [exact Logic.I|]. split; [|split; vm_compute; reflexivity].
  apply (c_open_array false [VInt 6; VDict []; VStr "a.b"] (octets [26; 0; 0; 0; 6; 191; 255; 127; 97; 97; 120; 2; 46; 98; 255])).
  2:{ cbn [In]. intros [H|[H|[H|[]]]]; discriminate H. }
  apply (c_items_more false (VInt 6) _ (octets [26; 0; 0; 0; 6])); [|apply (c_items_more false (VDict []) _ (octets [191; 255])); [|apply (c_items_more false (VStr "a.b") [] (octets [127; 97; 97; 120; 2; 46; 98; 255]) []); [|constructor]]].
  - apply c_unsigned. apply (head_next 0 26 (octets [0; 0; 0; 6])). cbn. auto.
  - apply (c_open_map false [] [] []); constructor.
  - apply (c_text_chunks false (octets [97; 46; 98]) (octets [97; 97; 120; 2; 46; 98])).
    apply (chunks_more 3 is_text (octets [97]) (octets [97]) (octets [46; 98]) (octets [120; 2; 46; 98])); [apply (head_here 3 1); lia|exists [97]; apply (utf8_more 97 [] [97] []); [constructor; lia|constructor]|].
    apply (chunks_more 3 is_text (octets [46; 98]) (octets [120; 2]) [] []); [apply (head_next 3 24 (octets [2])); cbn; auto| |constructor].
    exists [46; 98]. apply (utf8_more 46 [98] [46] [98]); [constructor; lia|]. apply (utf8_more 98 [] [98] []); [constructor; lia|constructor].
Qed.

(** ** C122: MessagePack. *)
Theorem C122_exact : forall b v, loads msgpack b = Ok v <-> SpecMsgPack.item 1024 v b.
Proof. exact msgpack_exact. Qed.
Print Assumptions C122_exact.
Theorem C122_writes : forall v b, msgpack_value v -> dumps msgpack v = Ok b -> SpecMsgPack.item 1024 v b.
Proof. exact msgpack_writes. Qed.
Print Assumptions C122_writes.
Theorem C122_message : forall m b, wf_message m -> SpecMsgPack.item 1024 (VList (marshal m)) b -> deserialize msgpack b = Ok (normalise m).
Proof. exact msgpack_message. Qed.
Print Assumptions C122_message.
Theorem C122_unambiguous : forall v w b, SpecMsgPack.item 1024 v b -> SpecMsgPack.item 1024 w b -> v = w.
Proof. exact msgpack_unambiguous. Qed.
Print Assumptions C122_unambiguous.
Example C122_instance :
  let b := octets [221; 0; 0; 0; 3; 205; 0; 6; 222; 0; 0; 217; 3; 97; 46; 98] in
  SpecMsgPack.item 1024 (VList (marshal goodbye)) b /\ deserialize msgpack b = Ok goodbye /\
  serialize msgpack goodbye = Ok (octets [147; 6; 128; 163; 97; 46; 98]).
Proof. cbv zeta. split; [apply msgpack_exact; vm_compute; reflexivity|split; vm_compute; reflexivity]. Qed.

(** ** C123: JSON, RFC 8259.  The octets are those of the text in UTF-8. *)
Theorem C123_reads : forall t b v, chars t (map value b) -> document false v t -> loads python_json b = Ok v.
Proof. exact json_reads. Qed.
Print Assumptions C123_reads.
Theorem C123_exact : forall b v, loads python_json b = Ok v <-> exists t, chars t (map value b) /\ document true v t.
Proof. exact json_exact. Qed.
Print Assumptions C123_exact.
(** What is written is JSON if there are no NaN and infinities; those are written as the words that Python reads. *)
Theorem C123_writes : forall v b, json_value v -> finite_floats v -> dumps python_json v = Ok b ->
  exists t, chars t (map value b) /\ document false v t.
Proof. exact json_writes_strict. Qed.
Print Assumptions C123_writes.
Theorem C123_writes_any : forall v b, json_value v -> dumps python_json v = Ok b -> exists t, chars t (map value b) /\ document true v t.
Proof. exact json_writes_lenient. Qed.
Print Assumptions C123_writes_any.
Theorem C123_message : forall m t b, wf_message m -> chars t (map value b) -> document false (VList (marshal m)) t ->
  deserialize python_json b = Ok (normalise m).
Proof. exact json_message. Qed.
Print Assumptions C123_message.
Theorem C123_unambiguous : forall v w t, document true v t -> document true w t -> v = w.
Proof. exact json_unambiguous. Qed.
Print Assumptions C123_unambiguous.
(** Not everything written is JSON: a NaN is not (RFC 8259 section 6). *)
Theorem C123_strict_refuted : exists v b, json_value v /\ dumps python_json v = Ok b /\
  forall t w, chars t (map value b) -> ~ document false w t.
Proof. exact json_not_strict. Qed.
Print Assumptions C123_strict_refuted.
(** [[ 6 , { } , "a.b" ]] and the float 0.1 as [1E-1] and as [100e-003]. *)
Example C123_instance :
  deserialize python_json (encode_str "[ 6 , { } , ""a.b"" ]") = Ok goodbye /\
  (exists t, chars t (map value (encode_str "[ 6 , { } , ""a.b"" ]")) /\ document true (VList (marshal goodbye)) t) /\
  finite_floats (VList (marshal goodbye)) /\
  nearest_decimal 1 (-1) 4591870180066957722 /\ nearest_decimal 100 (-3) 4591870180066957722 /\
  loads python_json (encode_str "[1E-1,100e-003, -0.0, 1e400]") =
    Ok (VList [VFloat 4591870180066957722; VFloat 4591870180066957722; VFloat (2 ^ 63); VFloat Infinite]).
Proof.
  split; [vm_compute; reflexivity|]. split; [apply json_exact; vm_compute; reflexivity|]. split; [vm_compute; repeat split|].
  split; [apply NearestFacts.nearest_decimal_iff; [lia|vm_compute; reflexivity]|]. split; [apply NearestFacts.nearest_decimal_iff; [lia|vm_compute; reflexivity]|].
  vm_compute. reflexivity.
Qed.
Example C123_strict_instance : document false (VList [VInt 1; VNone]) (word "[1, null]").
Proof.
  exists [], (word "[1, null]"), []. split; [constructor|]. split; [|split; [constructor|rewrite app_nil_r; reflexivity]].
  apply (j_array false [VInt 1; VNone] (word "1, null")).
  apply (j_items false (VInt 1) [] [49] [] [VNone] (word " null")); [constructor| |constructor|].
  - apply (j_integer false false [] [49]); [constructor| |unfold count; cbn; lia]. apply whole_more; [lia|constructor].
  - apply (j_item false VNone [32] (word "null") []); [repeat constructor|constructor|constructor].
Qed.
