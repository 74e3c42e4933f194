(** * SerializerFacts: lemmas for C10-C13. *)
From Coq Require Import String Ascii List ZArith Bool Lia.
From Verif Require Import PyBase Messages Parse Serializer SpecSchema RoundTripFacts.
Import ListNotations.
Local Open Scope Z_scope.

(** The codec law needed at one value: it encodes to something non-empty that decodes to the same value. *)
Definition codec_round_trips (c : codec) (v : val) : Prop :=
  exists b, dumps c v = Ok b /\ b <> [] /\ loads c b = Ok v.

Lemma serializer_round_trip c m : wf_message m -> codec_round_trips c (VList (marshal m)) ->
  exists b, serialize c m = Ok b /\ deserialize c b = Ok (normalise m).
Proof.
  intros Hwf (b & Hd & _ & Hl). exists b. split; [exact Hd|].
  unfold deserialize. rewrite Hl. cbn [bind]. apply round_trip. exact Hwf.
Qed.

Definition codec_of (cs : codecs) (id : Z) : option codec :=
  if id =? 1 then Some (json_codec cs) else if id =? 2 then Some (msgpack_codec cs)
  else if id =? 3 then Some (cbor_codec cs) else None.

Lemma decode_prepared args kwargs :
  decode (VList (prepare_for_encode args kwargs)) = Ok (norm_args args kwargs, kwargs).
Proof. destruct args, kwargs; reflexivity. Qed.

Lemma codec_of_cases cs id c : codec_of cs id = Some c ->
  (id = 1 /\ c = json_codec cs) \/ (id = 2 /\ c = msgpack_codec cs) \/ (id = 3 /\ c = cbor_codec cs).
Proof.
  unfold codec_of. destruct (Z.eqb_spec id 1); [|destruct (Z.eqb_spec id 2); [|destruct (Z.eqb_spec id 3)]];
    intros H; try discriminate; injection H as <-; auto.
Qed.

Lemma payload_round_trip cs id c args kwargs :
  codec_of cs id = Some c -> codec_round_trips c (VList (prepare_for_encode args kwargs)) ->
  exists b, serialize_payload cs id args kwargs = Ok (Some b) /\
            deserialize_payload cs id b = Ok (norm_args args kwargs, kwargs).
Proof.
  intros Hc (b & Hd & Hne & Hl). exists b.
  assert (HE : encode_payload c args kwargs = Ok (Some b)) by (unfold encode_payload; rewrite Hd; reflexivity).
  assert (HD : decode_payload c b = Ok (norm_args args kwargs, kwargs)).
  { unfold decode_payload. destruct b; [congruence|]. rewrite Hl. apply decode_prepared. }
  destruct (codec_of_cases _ _ _ Hc) as [[-> ->]|[[-> ->]|[-> ->]]]; split; assumption.
Qed.

(** The value actually handed to the codec. *)
Lemma payload_encodes cs id c args kwargs : codec_of cs id = Some c ->
  serialize_payload cs id args kwargs =
    (let! b := dumps c (VList (match args, kwargs with
                               | None, None => []
                               | Some a, None => [VList a]
                               | None, Some k => [VList []; VDict k]
                               | Some a, Some k => [VList a; VDict k]
                               end)) in Ok (Some b)).
Proof.
  intros Hc. destruct (codec_of_cases _ _ _ Hc) as [[-> ->]|[[-> ->]|[-> ->]]];
    destruct args, kwargs; reflexivity.
Qed.

Lemma unknown_serializer cs id : id < 0 \/ 3 < id ->
  (forall args kwargs, exists s, serialize_payload cs id args kwargs = Raise (ValueError s)) /\
  (forall b, exists s, deserialize_payload cs id b = Raise (ValueError s)).
Proof.
  intros H. unfold serialize_payload, deserialize_payload, NONE_SERIALIZER_ID, JSON_SERIALIZER_ID,
    MSGPACK_SERIALIZER_ID, CBOR_SERIALIZER_ID.
  destruct (Z.eqb_spec id 0); [lia|]. destruct (Z.eqb_spec id 1); [lia|].
  destruct (Z.eqb_spec id 3); [lia|]. destruct (Z.eqb_spec id 2); [lia|].
  split; intros; eexists; reflexivity.
Qed.

Lemma none_payload cs args kwargs :
  (forall b, serialize_payload cs 0 args kwargs = Ok (Some b) <->
     args = Some [VBytes b] /\ (kwargs = None \/ kwargs = Some [])) /\
  (serialize_payload cs 0 args kwargs = Ok None <-> args = None /\ kwargs = None) /\
  (forall e, serialize_payload cs 0 args kwargs = Raise e -> (exists s, e = ValueError s) \/ (exists s, e = TypeError s)) /\
  (forall b, deserialize_payload cs 0 b = Ok (Some [VBytes b], Some [])).
Proof.
  split; [|split; [|split; [|reflexivity]]].
  - intros b. unfold serialize_payload. cbn [Z.eqb NONE_SERIALIZER_ID].
    destruct args as [a|]; [|destruct kwargs; split; [discriminate|intros [H _]; discriminate
      |discriminate|intros [H _]; discriminate]].
    destruct a as [|x [|y a]]; cbn [length Nat.eqb negb orb];
      try (split; [discriminate|intros [H _]; discriminate]).
    destruct kwargs as [[|kv k]|].
    + destruct x; (split; [intros H; try discriminate; injection H as ->; auto|
        intros [H _]; try discriminate; injection H as ->; reflexivity]).
    + split; [discriminate|]. intros [_ [H|H]]; discriminate.
    + destruct x; (split; [intros H; try discriminate; injection H as ->; auto|
        intros [H _]; try discriminate; injection H as ->; reflexivity]).
  - unfold serialize_payload. cbn [Z.eqb NONE_SERIALIZER_ID].
    destruct args as [a|]; destruct kwargs as [k|]; try (split; [|intros [? ?]; discriminate]);
      try (split; [auto|reflexivity]); try discriminate;
      (destruct (negb _ || _); [discriminate|]; destruct a as [|[] ?]; discriminate).
  - intros e. unfold serialize_payload. cbn [Z.eqb NONE_SERIALIZER_ID].
    destruct args as [a|]; destruct kwargs as [k|]; try discriminate;
      try (intros H; injection H as <-; eauto);
      (destruct (negb _ || _); [intros H; injection H as <-; eauto|];
       destruct a as [|[] ?]; intros H; try discriminate; injection H as <-; eauto).
Qed.

Lemma decode_spec l :
  (forall a k, decode (VList l) = Ok (a, k) <->
     (l = [] /\ a = None /\ k = None) \/
     (exists x, l = [VList x] /\ a = Some x /\ k = None) \/
     (exists x d, l = [VList x; VDict d] /\ a = Some x /\ k = Some d)) /\
  ((exists s, decode (VList l) = Raise (ValueError s)) <-> (2 < length l)%nat) /\
  (forall e, decode (VList l) = Raise e -> (exists s, e = ValueError s) \/ (exists s, e = TypeError s)).
Proof.
  destruct l as [|x [|y [|z l]]].
  - split; [|split].
    + intros a k. cbn. split; [intros H; injection H as <- <-; auto|].
      intros [(_ & -> & ->)|[(x & H & _)|(x & d & H & _)]]; [reflexivity|discriminate|discriminate].
    + cbn. split; [intros [s H]; discriminate|lia].
    + cbn. discriminate.
  - split; [|split].
    + intros a k. cbn. destruct x; (split;
        [intros H; try discriminate; injection H as <- <-; eauto 6
        |intros [(H & _)|[(u & H & Ha & Hk)|(u & w & H & _)]]; try discriminate; injection H as ->; subst; reflexivity]).
    + cbn. split; [|lia]. intros [s H]. destruct x; discriminate.
    + cbn. intros e H. destruct x; try discriminate; injection H as <-; eauto.
  - split; [|split].
    + intros a k. cbn. destruct x; try (split;
        [intros H; discriminate|intros [(H & _)|[(u & H & _)|(u & w & H & _)]]; discriminate]).
      destruct y; try (split;
        [intros H; discriminate|intros [(H & _)|[(u & H & _)|(u & w & H & _)]]; discriminate]).
      split; [intros H; injection H as <- <-; eauto 8|].
      intros [(H & _)|[(u & H & _)|(u & w & H & Ha & Hk)]]; try discriminate. injection H as -> ->. subst. reflexivity.
    + cbn. split; [|lia]. intros [s H]. destruct x; try discriminate. destruct y; discriminate.
    + cbn. intros e H. destruct x; try (injection H as <-; eauto). destruct y; try discriminate; injection H as <-; eauto.
  - split; [|split].
    + intros a k. cbn. split; [discriminate|].
      intros [(H & _)|[(u & H & _)|(u & w & H & _)]]; discriminate.
    + cbn. split; [lia|]. intros _. eexists. reflexivity.
    + cbn. intros e H. injection H as <-. eauto.
Qed.
