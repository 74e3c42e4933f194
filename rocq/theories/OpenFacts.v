(** * OpenFacts: lemmas behind PropsOpen. *)
From Coq Require Import String Ascii List ZArith Bool Lia.
From Verif Require Import PyBase Encoding Messages Serializer MsgPack Cbor Json CodecOpen CodecOpenFacts Codecs HeaderFacts SpecFormat SpecCbor CborFormat FormatMessages.
Import ListNotations.
Local Open Scope Z_scope.
Local Open Scope list_scope.

Lemma open_reads U v b r : SpecCbor.item true v b -> loads (cbor_open U) (b ++ r) = Ok v.
Proof. intros H. apply (agrees_ok (loads cbor (b ++ r)) _ v); [apply cbor_open_loads|]. apply cbor_exact. eauto. Qed.
Lemma open_head c zs l b v : is_python_codec c -> zs <> [] -> Forall (fun z => 0 <= z <= 2 ^ 53) zs -> (length zs + length l <= 10)%nat ->
  dumps c (VList (map VInt zs ++ l)) = Ok b -> loads c b = Ok v -> exists l', v = VList (map VInt zs ++ l').
Proof. intros C N S L D R. exact (python_keeps_head c C zs l b v S N L D R). Qed.
