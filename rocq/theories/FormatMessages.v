(** * FormatMessages: messages in the encodings of SpecCbor, SpecMsgPack and SpecJson. *)
From Coq Require Import String Ascii List ZArith Bool Lia.
From Verif Require Import PyBase Encoding Utf8 Utf8Facts Messages Parse Serializer SpecSchema RoundTripFacts SerializerFacts CodecBase SpecCodec MsgPack Cbor Json Float Codecs
  SpecFormat FormatFacts SpecCbor SpecMsgPack SpecJson CborFormat MsgPackFormat JsonFormat.
Import ListNotations.
Local Open Scope Z_scope.

Lemma read_message c m b : wf_message m -> loads c b = Ok (VList (marshal m)) -> deserialize c b = Ok (normalise m).
Proof. intros W L. unfold deserialize. rewrite L. cbn [bind]. apply round_trip. exact W. Qed.

Lemma cbor_reads_item v b : SpecCbor.item false v b -> loads cbor b = Ok v.
Proof. intros I. rewrite <- (app_nil_r b). eapply cbor_reads. exact I. Qed.
Lemma cbor_message m b : wf_message m -> SpecCbor.item false (VList (marshal m)) b -> deserialize cbor b = Ok (normalise m).
Proof. intros W I. apply read_message; [exact W|]. apply cbor_reads_item. exact I. Qed.
Lemma cbor_unambiguous v w b : SpecCbor.item true v b -> SpecCbor.item true w b -> v = w.
Proof. intros I J. apply (cbor_reads true v b []) in I. apply (cbor_reads true w b []) in J. congruence. Qed.

Lemma msgpack_message m b : wf_message m -> SpecMsgPack.item 1024 (VList (marshal m)) b -> deserialize msgpack b = Ok (normalise m).
Proof. intros W I. apply read_message; [exact W|]. apply msgpack_exact. exact I. Qed.
Lemma msgpack_unambiguous v w b : SpecMsgPack.item 1024 v b -> SpecMsgPack.item 1024 w b -> v = w.
Proof. intros I J. apply msgpack_exact in I, J. congruence. Qed.

Lemma json_message m t b : wf_message m -> chars t (map value b) -> document false (VList (marshal m)) t -> deserialize python_json b = Ok (normalise m).
Proof. intros W C D. apply read_message; [exact W|]. eapply json_reads; eassumption. Qed.
Lemma json_unambiguous v w t : document true v t -> document true w t -> v = w.
Proof. intros I J. apply document_reads in I, J. congruence. Qed.
Lemma json_writes_strict v b : json_value v -> finite_floats v -> dumps python_json v = Ok b -> exists t, chars t (map value b) /\ document false v t.
Proof. intros W F. apply (json_writes false); [exact W|right; exact F]. Qed.
Lemma json_writes_lenient v b : json_value v -> dumps python_json v = Ok b -> exists t, chars t (map value b) /\ document true v t.
Proof. intros W. apply (json_writes true); [exact W|left; reflexivity]. Qed.
Lemma no_strict_nan u : ~ element false (VFloat NAN) u.
Proof.
  intros E. remember (VFloat NAN) as v eqn:V. revert V. destruct E; try discriminate; try congruence.
  intros V. injection V as V. assert (G : 0 <= g <= Infinite).
  { match goal with H : nearest_decimal _ _ _ |- _ => unfold nearest_decimal in H; destruct (0 <=? x - count d); apply H end. }
  unfold signed, Infinite, NAN in *. destruct m; lia.
Qed.
Lemma json_not_strict : exists v b, json_value v /\ dumps python_json v = Ok b /\ forall t w, chars t (map value b) -> ~ document false w t.
Proof.
  exists (VFloat NAN), (encode_str "NaN"). split; [split; [|exact Logic.I]; split; [vm_compute; split; congruence|reflexivity]|]. split; [reflexivity|].
  intros t w C D. pose proof (json_reads _ _ _ C D) as L. assert (N : loads python_json (encode_str "NaN") = Ok (VFloat NAN)) by reflexivity. rewrite N in L. injection L as <-.
  destruct D as (w & u & w' & _ & E & _). exact (no_strict_nan u E).
Qed.
