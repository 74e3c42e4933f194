(** * PropsCodec: C10 and C11 with the concrete codecs, C81-C85. *)
From Coq Require Import String Ascii List ZArith Bool.
From Verif Require Import PyBase Encoding Messages Parse Serializer SpecSchema RoundTripFacts SerializerFacts CodecBase SpecCodec MsgPack Cbor Json Utf8 Float Codecs ExtendFacts CodecsFacts.
Import ListNotations.
Local Open Scope Z_scope.

Definition octets (l : list Z) : bytes := map byte_of l.

(** ** C10: every well formed message whose values the format can carry arrives unchanged. *)
Theorem C10_msgpack : forall m, wf_message m -> msgpack_value (VList (marshal m)) ->
  exists b, serialize msgpack m = Ok b /\ deserialize msgpack b = Ok (normalise m).
Proof. exact msgpack_serializer. Qed.
Print Assumptions C10_msgpack.

Theorem C10_cbor : forall m, wf_message m -> cbor_value (VList (marshal m)) ->
  exists b, serialize cbor m = Ok b /\ deserialize cbor b = Ok (normalise m).
Proof. exact cbor_serializer. Qed.
Print Assumptions C10_cbor.

Theorem C10_json : forall m, wf_message m -> json_value (VList (marshal m)) ->
  exists b, serialize python_json m = Ok b /\ deserialize python_json b = Ok (normalise m).
Proof. exact json_serializer. Qed.
Print Assumptions C10_json.

(** Text outside ASCII, a float, a negative and a large integer, None, nested containers, NaN. *)
Definition sample : message :=
  Event (mkEvent (PyInt 7) (PyInt 8)
    (Some [VStr "hé"; VFloat 4599075939470750515; VInt (-1); VInt (2 ^ 63); VNone; VList [VBool true; VDict [(VStr "k", VList [])]]])
    (Some [(VStr "a", VInt 300); (VStr "b", VFloat NAN)]) [(VStr "retained", VBool false)]).
Example C10_sample_wf : wf_message sample.
Proof. split; [exists 7|exists 8]; (split; [reflexivity|split; intros H; discriminate H]). Qed.
Example C10_sample_portable : portable (VList (marshal sample)).
Proof.
  split; [|vm_compute; repeat constructor].
  vm_compute. repeat split; try (intros; discriminate); try reflexivity; repeat constructor; cbn; try tauto; intros H; intuition congruence.
Qed.
Example C10_sample_bytes :
  serialize msgpack (Event (mkEvent (PyInt 7) (PyInt 8) (Some [VStr "hi"; VInt (-200)]) None [])) =
    Ok (octets [149; 36; 7; 8; 128; 146; 162; 104; 105; 209; 255; 56]) /\
  serialize cbor (Event (mkEvent (PyInt 7) (PyInt 8) (Some [VStr "hi"; VInt (-200)]) None [])) =
    Ok (octets [133; 24; 36; 7; 8; 160; 130; 98; 104; 105; 56; 199]) /\
  serialize python_json (Event (mkEvent (PyInt 7) (PyInt 8) (Some [VStr "hi"; VInt (-200); VFloat 4609434218613702656]) None [])) =
    Ok (encode_str "[36, 7, 8, {}, [""hi"", -200, 1.5]]").
Proof. repeat split; vm_compute; reflexivity. Qed.

(** Two messages with the same encoding are the same message, up to normalisation. *)
Theorem C10_injective : forall c m m' b, is_python_codec c -> wf_message m -> wf_message m' ->
  codec_round_trips c (VList (marshal m)) -> codec_round_trips c (VList (marshal m')) ->
  serialize c m = Ok b -> serialize c m' = Ok b -> normalise m = normalise m'.
Proof. intros c m m' b _ W W' R R' S S'. exact (serialize_injective c m m' b W W' R S S' R'). Qed.
Print Assumptions C10_injective.

(** ** C11: payloads. *)
Theorem C11_python : forall id args kwargs, wire_value id (VList (prepare_for_encode args kwargs)) ->
  exists b, serialize_payload python_codecs id args kwargs = Ok (Some b) /\
            deserialize_payload python_codecs id b = Ok (norm_args args kwargs, kwargs).
Proof. exact payload_python. Qed.
Print Assumptions C11_python.
Example C11_python_instance : wire_value 3 (VList (prepare_for_encode (Some [VBytes (octets [0; 255])]) (Some [(VStr "x", VFloat NAN)]))).
Proof.
  right. right. split; [reflexivity|]. unfold cbor_value. cbn [prepare_for_encode everywhere].
  repeat split; match goal with |- distinct_keys _ => repeat constructor | |- Forall _ _ => repeat constructor | _ => vm_compute; try reflexivity; intros; discriminate end.
Qed.

(** ** C81: whatever bytes arrive, deserialize returns a message or raises a documented kind of exception. *)
Theorem C81_msgpack : forall b e, deserialize msgpack b = Raise e -> parse_error e.
Proof. exact msgpack_deserialize_error. Qed.
Print Assumptions C81_msgpack.
Theorem C81_json : forall b e, deserialize python_json b = Raise e -> parse_error e.
Proof. exact json_deserialize_error. Qed.
Print Assumptions C81_json.
(** CBOR: C81_cbor in PropsOpen.v. *)
Example C81_instances :
  (exists s, deserialize msgpack (octets [193]) = Raise (ValueError s)) /\
  (exists s, deserialize msgpack (octets [160]) = Raise (TypeError s)) /\
  deserialize msgpack (octets [144]) = Raise IndexError /\
  (exists s, deserialize python_json (encode_str "[1,") = Raise (ValueError s)) /\
  (exists s, deserialize cbor (octets [130; 1]) = Raise (CodecError s)).
Proof. vm_compute. repeat split; try eexists; reflexivity. Qed.

(** ** C82: a message followed by further bytes. *)
Theorem C82_msgpack : forall b s m, deserialize msgpack b = Ok m -> s <> [] -> exists e, deserialize msgpack (b ++ s) = Raise (ValueError e).
Proof. exact msgpack_extra. Qed.
Print Assumptions C82_msgpack.
Theorem C82_json : forall b s m, deserialize python_json b = Ok m ->
  (blank s /\ deserialize python_json (b ++ s) = Ok m) \/ (~ blank s /\ exists e, deserialize python_json (b ++ s) = Raise (ValueError e)).
Proof. exact json_extra. Qed.
Print Assumptions C82_json.
Definition wire (c : codec) (m : message) : bytes := match serialize c m with Ok b => b | Raise _ => [] end.
Theorem C82_cbor_refuted :
  (forall b s m, deserialize cbor b = Ok m -> deserialize cbor (b ++ s) = Ok m) /\
  exists b s m, s <> [] /\ deserialize cbor b = Ok m /\ deserialize cbor (b ++ s) = Ok m.
Proof.
  split; [exact cbor_extra|]. exists (wire cbor sample), (octets [1; 2; 3]), sample. split; [discriminate|]. split; vm_compute; reflexivity.
Qed.
Print Assumptions C82_cbor_refuted.
Example C82_instances :
  deserialize msgpack (wire msgpack sample) = Ok sample /\ deserialize python_json (wire python_json sample) = Ok sample /\
  deserialize cbor (wire cbor sample) = Ok sample /\ deserialize cbor (wire cbor sample ++ octets [1; 2; 3]) = Ok sample.
Proof. vm_compute. repeat split; reflexivity. Qed.

(** ** C83: a message cut short is never taken for a message. *)
Theorem C83_msgpack : forall p q m, deserialize msgpack (p ++ q) = Ok m -> q <> [] -> exists e, deserialize msgpack p = Raise e.
Proof. exact msgpack_truncated. Qed.
Print Assumptions C83_msgpack.
Theorem C83_json : forall p q m, json_value (VList (marshal m)) -> serialize python_json m = Ok (p ++ q) -> q <> [] ->
  exists e, deserialize python_json p = Raise e.
Proof. exact json_truncated. Qed.
Print Assumptions C83_json.
Theorem C83_cbor : forall p q m, cbor_value (VList (marshal m)) -> serialize cbor m = Ok (p ++ q) -> q <> [] ->
  exists e, deserialize cbor p = Raise e.
Proof. exact cbor_truncated. Qed.
Print Assumptions C83_cbor.
Example C83_instance :
  json_value (VList (marshal (Goodbye (mkGoodbye [] "wamp.close.normal")))) /\
  serialize python_json (Goodbye (mkGoodbye [] "wamp.close.normal")) = Ok (encode_str "[6, {}, ""wamp.close.normal" ++ encode_str """]").
Proof. split; [|vm_compute; reflexivity]. repeat split; try reflexivity; repeat constructor. Qed.

(** ** C84: a message received with a serializer can be sent on with it and arrives the same. *)
Theorem C84_json_partial : forall b m, deserialize python_json b = Ok m -> utf8_valid b = true -> filtered_class (class_of m) = false ->
  exists b', serialize python_json m = Ok b' /\ deserialize python_json b' = Ok m.
Proof. exact json_send_on. Qed.
Print Assumptions C84_json_partial.
Theorem C84_cbor_partial : forall b m v, deserialize cbor b = Ok m -> filtered_class (class_of m) = false -> zlen b < 2 ^ 60 ->
  loads cbor b = Ok v -> plain_data v -> usual_nan v -> exists b', serialize cbor m = Ok b' /\ deserialize cbor b' = Ok m.
Proof. exact cbor_send_on. Qed.
Print Assumptions C84_cbor_partial.
Theorem C84_msgpack_partial : forall b m v, deserialize msgpack b = Ok m -> filtered_class (class_of m) = false ->
  loads msgpack b = Ok v -> plain_data v -> (depth v <= 511)%nat -> exists b', serialize msgpack m = Ok b' /\ deserialize msgpack b' = Ok m.
Proof. exact msgpack_send_on. Qed.
Print Assumptions C84_msgpack_partial.
Definition received (c : codec) (b : bytes) : message := match deserialize c b with Ok m => m | Raise _ => sample end.
(** Nested deeper than the packer allows, though the unpacker accepts it. *)
Definition deep_event : bytes := (octets [149; 36; 1; 2; 128] ++ repeat (byte_of 145) 600 ++ octets [144])%list.
Theorem C84_msgpack_refuted : exists b m e, deserialize msgpack b = Ok m /\ class_of m = CEvent /\ serialize msgpack m = Raise (ValueError e).
Proof. exists deep_event, (received msgpack deep_event). eexists. split; [vm_compute; reflexivity|]. split; vm_compute; reflexivity. Qed.
Print Assumptions C84_msgpack_refuted.
(** An event whose argument is two surrogates, written as such and not as escapes: json.loads keeps both, json.dumps writes two
    escapes, and they are read as one character. *)
Definition pair_event : bytes := (encode_str "[36, 1, 2, {}, [""" ++ octets [237; 160; 128; 237; 176; 128] ++ encode_str """]]")%list.
Theorem C84_json_refuted : exists b m b' m', deserialize python_json b = Ok m /\ class_of m = CEvent /\
  serialize python_json m = Ok b' /\ deserialize python_json b' = Ok m' /\ m' <> m.
Proof.
  exists pair_event, (received python_json pair_event). eexists. eexists. split; [vm_compute; reflexivity|]. split; [vm_compute; reflexivity|].
  split; [vm_compute; reflexivity|]. split; [vm_compute; reflexivity|]. vm_compute. discriminate.
Qed.
Print Assumptions C84_json_refuted.
Example C84_instance :
  loads msgpack (wire msgpack sample) = Ok (VList (marshal sample)) /\ loads cbor (wire cbor sample) = Ok (VList (marshal sample)) /\
  plain_data (VList (marshal sample)) /\ usual_nan (VList (marshal sample)) /\ (depth (VList (marshal sample)) <= 511)%nat /\
  filtered_class (class_of sample) = false.
Proof.
  split; [vm_compute; reflexivity|]. split; [vm_compute; reflexivity|]. split; [repeat split|]. split; [vm_compute; repeat split; intros; discriminate|].
  split; [vm_compute; repeat constructor|reflexivity].
Qed.

(** ** C85: a message received with one serializer and sent on with another. *)
Theorem C85_partial : forall c c' b m, is_python_codec c' -> deserialize c b = Ok m -> class_of m <> CAbort -> portable (VList (marshal m)) ->
  exists b', serialize c' m = Ok b' /\ deserialize c' b' = Ok m.
Proof. exact gateway. Qed.
Print Assumptions C85_partial.
Example C85_instance : deserialize cbor (wire cbor sample) = Ok sample /\ class_of sample <> CAbort /\
  deserialize python_json (wire python_json sample) = Ok sample.
Proof. split; [vm_compute; reflexivity|]. split; [discriminate|vm_compute; reflexivity]. Qed.
(** An event with a bytes argument from MsgPack cannot go out as JSON; an integer of 2^64 from JSON not as MsgPack; a lone
    surrogate from JSON neither as MsgPack nor as CBOR. *)
Theorem C85_refuted :
  (exists b m e, deserialize msgpack b = Ok m /\ class_of m = CEvent /\ serialize python_json m = Raise (TypeError e)) /\
  (exists b m e, deserialize python_json b = Ok m /\ class_of m = CEvent /\ serialize msgpack m = Raise (OverflowError e)) /\
  (exists b m e, deserialize python_json b = Ok m /\ class_of m = CEvent /\ serialize msgpack m = Raise (ValueError e) /\ serialize cbor m = Raise (ValueError e)).
Proof.
  split; [|split].
  - pose (b := octets [149; 36; 1; 2; 128; 145; 196; 1; 0]). exists b, (received msgpack b). eexists.
    split; [vm_compute; reflexivity|]. split; vm_compute; reflexivity.
  - pose (b := encode_str "[36, 1, 2, {}, [18446744073709551616]]"). exists b, (received python_json b). eexists.
    split; [vm_compute; reflexivity|]. split; vm_compute; reflexivity.
  - pose (b := encode_str "[36, 1, 2, {}, [""\ud800""]]"). exists b, (received python_json b). eexists.
    split; [vm_compute; reflexivity|]. split; [vm_compute; reflexivity|]. split; vm_compute; reflexivity.
Qed.
Print Assumptions C85_refuted.
