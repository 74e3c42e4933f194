(** * CodecsFacts: the serializers with concrete codecs. *)
From Coq Require Import String Ascii List ZArith Bool Lia.
From Verif Require Import PyBase Messages Parse Serializer SpecSchema SchemaFacts RoundTripFacts SerializerFacts Encoding Utf8 Utf8Facts CodecBase SpecCodec CodecFacts MsgPack MsgPackFacts
  Cbor CborFacts CodecOpen CodecOpenFacts Json JsonFacts JsonBytes SpecJsonBytes JsonBytesFacts Float FloatFacts Codecs ExtendFacts DomainFacts.
Import ListNotations.
Local Open Scope Z_scope.

Lemma python_json_round_trip v : json_value v -> codec_round_trips python_json v.
Proof. apply json_round_trip. exact python_floats_ok. Qed.

Lemma msgpack_serializer m : wf_message m -> msgpack_value (VList (marshal m)) ->
  exists b, serialize msgpack m = Ok b /\ deserialize msgpack b = Ok (normalise m).
Proof. intros W V. apply serializer_round_trip; [exact W|]. apply msgpack_round_trip. exact V. Qed.
Lemma json_bytes_round_trip l : json_value (VList l) -> codec_round_trips json_bytes (VList l).
Proof.
  intros W. destruct (python_json_round_trip _ W) as (b & E & N & L). exists b. split; [exact E|]. split; [exact N|].
  rewrite <- L. cbn [dumps loads json_bytes json python_json] in *. exact (loads_bytes_list _ Utf8 l b python_floats_ok W E).
Qed.
Lemma cbor_serializer m : wf_message m -> cbor_value (VList (marshal m)) ->
  exists b, serialize cbor m = Ok b /\ deserialize cbor b = Ok (normalise m).
Proof. intros W V. apply serializer_round_trip; [exact W|]. apply cbor_round_trip. exact V. Qed.
Lemma json_serializer m : wf_message m -> json_value (VList (marshal m)) ->
  exists b, serialize python_json m = Ok b /\ deserialize python_json b = Ok (normalise m).
Proof. intros W V. apply serializer_round_trip; [exact W|]. apply python_json_round_trip. exact V. Qed.

(** Payloads. *)
Definition wire_value (id : Z) (v : val) : Prop :=
  (id = 1 /\ json_value v) \/ (id = 2 /\ msgpack_value v) \/ (id = 3 /\ cbor_value v).
Lemma payload_python id args kwargs : wire_value id (VList (prepare_for_encode args kwargs)) ->
  exists b, serialize_payload python_codecs id args kwargs = Ok (Some b) /\
            deserialize_payload python_codecs id b = Ok (norm_args args kwargs, kwargs).
Proof.
  intros [[-> V]|[[-> V]|[-> V]]]; eapply payload_round_trip; try reflexivity.
  - apply json_bytes_round_trip. exact V.
  - apply msgpack_round_trip. exact V.
  - apply cbor_round_trip. exact V.
Qed.

(** Exceptions of [deserialize] on arbitrary octets. *)
Definition parse_error (e : exn) : Prop :=
  match e with ValueError _ | TypeError _ | IndexError => True | _ => False end.
Lemma to_message_error v e : to_message v = Raise e -> parse_error e.
Proof.
  intros H. destruct (exception_discipline v) as (_ & _ & D). destruct (D e H) as [->|[[s ->]|(m & -> & _)]]; exact I.
Qed.
Lemma msgpack_deserialize_error b e : deserialize msgpack b = Raise e -> parse_error e.
Proof.
  unfold deserialize. cbn [loads msgpack]. destruct (mp_loads_total b) as [(v & -> & _)|(m & ->)]; cbn [bind].
  - apply to_message_error.
  - intros [= <-]. exact I.
Qed.
Lemma json_deserialize_error b e : deserialize python_json b = Raise e -> parse_error e.
Proof.
  unfold deserialize, python_json. cbn [loads json]. destruct (js_loads_total python_floats python_floats_bounded b) as [(v & -> & _)|(m & ->)]; cbn [bind].
  - apply to_message_error.
  - intros [= <-]. exact I.
Qed.
Lemma cbor_deserialize_error b e : deserialize cbor b = Raise e ->
  parse_error e \/ (exists m, e = CodecError m) \/ (loads cbor b = Raise ModelGap /\ e = ModelGap).
Proof.
  unfold deserialize. cbn [loads cbor]. destruct (cb_loads_total b) as [(v & -> & _)|[(m & ->)| ->]]; cbn [bind].
  - intros H. left. exact (to_message_error v e H).
  - intros [= <-]. eauto.
  - intros [= <-]. auto.
Qed.

(** ** Truncated and extended messages *)
Lemma msgpack_extra b s m : deserialize msgpack b = Ok m -> s <> [] -> exists e, deserialize msgpack (b ++ s) = Raise (ValueError e).
Proof.
  unfold deserialize. cbn [loads msgpack]. destruct (mp_loads b) as [v|e] eqn:E; cbn [bind]; [|discriminate]. intros _ S.
  rewrite (mp_loads_extra _ _ _ E S). cbn [bind]. eauto.
Qed.
Lemma to_message_list v m : to_message v = Ok m -> exists l, v = VList l.
Proof. unfold to_message. destruct v; try discriminate; eauto. Qed.
Lemma json_extra b s m : deserialize python_json b = Ok m ->
  (blank s /\ deserialize python_json (b ++ s) = Ok m) \/ (~ blank s /\ exists e, deserialize python_json (b ++ s) = Raise (ValueError e)).
Proof.
  unfold deserialize, python_json. cbn [loads json]. destruct (js_loads python_floats b) as [v|e] eqn:E; cbn [bind]; [|discriminate]. intros H.
  destruct (to_message_list _ _ H) as [l ->]. destruct (js_loads_extra python_floats b s _ E I) as [[B ->]|[B [e ->]]]; cbn [bind]; eauto.
Qed.
Lemma cbor_extra b s m : deserialize cbor b = Ok m -> deserialize cbor (b ++ s) = Ok m.
Proof.
  unfold deserialize. cbn [loads cbor]. destruct (cb_loads b) as [v|e] eqn:E; cbn [bind]; [|discriminate]. intros H.
  rewrite (cb_loads_extra _ s _ E). exact H.
Qed.

Lemma msgpack_truncated p q m : deserialize msgpack (p ++ q) = Ok m -> q <> [] -> exists e, deserialize msgpack p = Raise e.
Proof.
  intros H Q. destruct (deserialize msgpack p) as [m'|e] eqn:E; [|eauto]. destruct (msgpack_extra _ _ _ E Q) as [e E']. congruence.
Qed.
Lemma json_truncated p q m : json_value (VList (marshal m)) -> serialize python_json m = Ok (p ++ q) -> q <> [] -> exists e, deserialize python_json p = Raise e.
Proof.
  intros V S Q. destruct (deserialize python_json p) as [m'|e] eqn:E; [|eauto]. exfalso.
  unfold deserialize, python_json in E. cbn [loads json] in E. destruct (js_loads python_floats p) as [v|e] eqn:L; cbn [bind] in E; [|discriminate].
  destruct (to_message_list _ _ E) as [l ->]. clear E.
  destruct (js_good_all python_floats python_floats_ok _ V) as (t & T & St & A & Dp & R).
  unfold serialize, python_json in S. cbn [dumps json] in S. unfold js_dumps in S. rewrite T in S. cbn [bind] in S. injection S as S.
  unfold js_loads, js_decode in L. destruct (str_points p) as [u|] eqn:U; [|discriminate].
  pose proof (str_points_app _ _ q U) as X. rewrite <- S, utf8_ascii in X by exact A. destruct (str_points q) as [w|] eqn:W; [|discriminate]. injection X as ->.
  destruct (js_dec python_floats (Datatypes.S (length u)) (skip_ws u)) as [[v r]|e] eqn:D; cbn [bind] in L; [|discriminate]. destruct (skip_ws r) eqn:Sk; [|discriminate]. injection L as ->.
  assert (NE : skip_ws (u ++ w) = skip_ws u ++ w).
  { destruct (skip_ws u) as [|y z] eqn:Y; [exfalso; exact (js_dec_nil _ _ _ D)|]. apply skip_ws_app. exact Y. }
  assert (NW : skip_ws (u ++ w) = u ++ w). { destruct St as (c & t' & -> & C & _). cbn [skip_ws]. rewrite C. reflexivity. }
  rewrite NW in NE.
  pose proof (proj2 (js_dec_ext python_floats w (Datatypes.S (length u)) (Datatypes.S (length (u ++ w))) ltac:(rewrite app_length; lia)) _ _ _ D (or_intror I)) as D'.
  rewrite <- NE in D'. specialize (R (Datatypes.S (length (u ++ w))) [] I ltac:(lia)). rewrite app_nil_r in R. rewrite R in D'. injection D' as _ D'.
  symmetry in D'. apply app_eq_nil in D'. destruct D' as [_ ->]. apply encode_str_points in W. destruct W as [W _]. cbn in W. congruence.
Qed.
Lemma cbor_truncated p q m : cbor_value (VList (marshal m)) -> serialize cbor m = Ok (p ++ q) -> q <> [] -> exists e, deserialize cbor p = Raise e.
Proof.
  intros V S Q. destruct (deserialize cbor p) as [m'|e] eqn:E; [|eauto]. exfalso.
  unfold deserialize in E. cbn [loads cbor] in E. unfold cb_loads, cb_loads_within in E. destruct (cb_dec (Datatypes.S (length p)) p) as [[v r]|e] eqn:D; cbn [bind] in E; [|discriminate].
  destruct (cb_good_all _ V) as (b & B & L & R). unfold serialize in S. cbn [dumps cbor] in S. rewrite B in S. injection S as ->.
  pose proof (cb_dec_grows q (Datatypes.S (length p)) (Datatypes.S (length (p ++ q))) p ltac:(rewrite app_length; lia) _ _ D) as D'.
  specialize (R (Datatypes.S (length (p ++ q))) [] ltac:(lia)). rewrite app_nil_r in R. rewrite R in D'. injection D' as _ D'.
  symmetry in D'. apply app_eq_nil in D'. tauto.
Qed.

(** ** Sending on what was received *)
Lemma here_head (P : val -> Prop) h r v : P v -> (P (VList (h :: r)) -> P (VList (v :: r))) -> everywhere P v -> everywhere P (VList (h :: r)) -> everywhere P (VList (v :: r)).
Proof.
  intros Pv PL Ev E. apply everywhere_list in E. destruct E as [E0 E]. apply everywhere_list. inversion E; subst. split; [auto|constructor; assumption].
Qed.
Lemma send_on c (P : val -> Prop) b m v : (forall x, everywhere P x -> (depth x <= depth v)%nat -> codec_round_trips c x) ->
  (forall h r z, 0 <= z < 256 -> P (VList (h :: r)) -> P (VList (VInt z :: r))) -> (forall z, 0 <= z < 256 -> P (VInt z)) ->
  loads c b = Ok v -> to_message v = Ok m -> everywhere P v -> filtered_class (class_of m) = false ->
  exists b', serialize c m = Ok b' /\ deserialize c b' = Ok m.
Proof.
  intros RT PL PI L T E F. destruct (remarshal v m T F) as (h & r & -> & M & _).
  assert (Z1 : 0 <= message_TYPE m < 256) by (destruct m; vm_compute; split; congruence).
  assert (E' : everywhere P (VList (marshal m))).
  { rewrite M. eapply here_head; [apply PI; exact Z1|apply PL; exact Z1| |exact E]. split; [apply PI; exact Z1|exact I]. }
  assert (DD : (depth (VList (marshal m)) <= depth (VList (h :: r)))%nat).
  { rewrite M. apply depth_list_le. pose proof (depth_list (h :: r) _ (Nat.le_refl _)) as Q. inversion Q; subst. constructor; [cbn [depth] in *; lia|assumption]. }
  destruct (RT _ E' DD) as (b' & D & _ & L'). exists b'. split; [exact D|]. unfold deserialize. rewrite L'. cbn [bind].
  apply (parse_stable _ _ T). intros C. rewrite C in F. discriminate.
Qed.
Lemma json_send_on b m : deserialize python_json b = Ok m -> utf8_valid b = true -> filtered_class (class_of m) = false ->
  exists b', serialize python_json m = Ok b' /\ deserialize python_json b' = Ok m.
Proof.
  intros D U F. unfold deserialize in D. destruct (loads python_json b) as [v|e] eqn:L; cbn [bind] in D; [|discriminate].
  apply (send_on python_json json_here b m v); [| | |exact L|exact D| |exact F].
  - intros x X _. apply python_json_round_trip. exact X.
  - intros h r z Hz [A B]. split; exact I.
  - intros z Hz. split; [exact I|]. apply Z.lt_trans with (10 ^ 3); [cbn; lia|apply Z.pow_lt_mono_r; lia].
  - exact (json_loads_domain _ _ L U).
Qed.
Lemma cbor_send_on b m v : deserialize cbor b = Ok m -> filtered_class (class_of m) = false -> zlen b < 2 ^ 60 ->
  loads cbor b = Ok v -> plain_data v -> usual_nan v -> exists b', serialize cbor m = Ok b' /\ deserialize cbor b' = Ok m.
Proof.
  intros D F Z1 L P N. unfold deserialize in D. rewrite L in D. cbn [bind] in D.
  apply (send_on cbor cbor_here b m v); [| | |exact L|exact D| |exact F].
  - intros x X _. apply cbor_round_trip. exact X.
  - intros h r z Hz [A B]. split; [exact I|exact B].
  - intros z Hz. split; [exact I|]. assert (Z.log2 (Z.abs z) <= Z.log2 (2 ^ 8)) by (apply Z.log2_le_mono; lia). rewrite Z.log2_pow2 in H by lia. lia.
  - exact (cbor_loads_domain _ _ L Z1 P N).
Qed.
Lemma msgpack_send_on b m v : deserialize msgpack b = Ok m -> filtered_class (class_of m) = false ->
  loads msgpack b = Ok v -> plain_data v -> (depth v <= 511)%nat -> exists b', serialize msgpack m = Ok b' /\ deserialize msgpack b' = Ok m.
Proof.
  intros D F L P N. unfold deserialize in D. rewrite L in D. cbn [bind] in D.
  apply (send_on msgpack msgpack_here b m v); [| | |exact L|exact D| |exact F].
  - intros x X Dx. apply msgpack_round_trip. split; [exact X|lia].
  - intros h r z Hz [A B]. split; [exact I|exact B].
  - intros z Hz. split; [exact I|lia].
  - exact (msgpack_loads_domain _ _ L P).
Qed.

(** What the libraries do with what Cbor.v, MsgPack.v and Json.v leave out makes no difference. *)
Lemma cbor_open_round_trip U v : codec_round_trips cbor v -> codec_round_trips (cbor_open U) v.
Proof. intros (b & D & L). exists b. split; [exact (agrees_ok _ _ _ (cbor_open_dumps U v) D)|]. destruct L as [L1 L2]. split; [exact L1|exact (agrees_ok _ _ _ (cbor_open_loads U b) L2)]. Qed.
Lemma msgpack_open_round_trip U v : codec_round_trips msgpack v -> codec_round_trips (msgpack_open U) v.
Proof. intros (b & D & L). exists b. split; [exact (agrees_ok _ _ _ (msgpack_open_dumps U v) D)|exact L]. Qed.
Lemma json_open_round_trip U fl v : codec_round_trips (json fl) v -> codec_round_trips (json_open U fl) v.
Proof. intros (b & D & L). exists b. split; [exact (agrees_ok _ _ _ (json_open_dumps U fl v) D)|exact L]. Qed.
(** Between formats: [c] and [c'] may be any two of the three. *)
Lemma portable_round_trips c v : is_python_codec c -> portable v -> codec_round_trips c v.
Proof.
  intros C P. assert (B : codec_round_trips msgpack v) by apply msgpack_round_trip, portable_msgpack, P.
  assert (B' : codec_round_trips cbor v) by (apply cbor_round_trip, msgpack_cbor; [apply portable_msgpack, P|apply portable_nan, P]).
  assert (J : codec_round_trips python_json v) by apply python_json_round_trip, portable_json, P.
  destruct C as [->|[->|[->|(U & [->|[->| ->]])]]].
  - exact J.
  - exact B.
  - exact B'.
  - exact (json_open_round_trip U _ _ J).
  - exact (msgpack_open_round_trip U _ B).
  - exact (cbor_open_round_trip U _ B').
Qed.
Lemma gateway c c' b m : is_python_codec c' -> deserialize c b = Ok m -> class_of m <> CAbort -> portable (VList (marshal m)) ->
  exists b', serialize c' m = Ok b' /\ deserialize c' b' = Ok m.
Proof.
  intros C D A P. unfold deserialize in D. destruct (loads c b) as [v|e]; cbn [bind] in D; [|discriminate].
  destruct (portable_round_trips c' _ C P) as (b' & S & _ & L). exists b'. split; [exact S|]. unfold deserialize. rewrite L. cbn [bind].
  exact (parse_stable _ _ D A).
Qed.

(** Different messages have different encodings. *)
Lemma serialize_injective c m m' b : wf_message m -> wf_message m' -> codec_round_trips c (VList (marshal m)) ->
  serialize c m = Ok b -> serialize c m' = Ok b -> codec_round_trips c (VList (marshal m')) -> normalise m = normalise m'.
Proof.
  intros W W' R S S' R'. destruct (serializer_round_trip c m W R) as (x & X & Y). destruct (serializer_round_trip c m' W' R') as (x' & X' & Y'). congruence.
Qed.

(** JSON as bytes. *)
Lemma json_bytes_error b e : deserialize json_bytes b = Raise e -> parse_error e.
Proof.
  unfold deserialize. cbn [loads json_bytes]. destruct (js_loads_bytes_total python_floats b python_floats_bounded) as [(v & ->)|(m & ->)]; cbn [bind].
  - apply to_message_error.
  - intros [= <-]. exact I.
Qed.
Lemma json_bytes_same m b e : json_value (VList (marshal m)) -> serialize python_json m = Ok b ->
  deserialize json_bytes (encode_as e b) = deserialize python_json b.
Proof.
  intros W S. unfold serialize in S. unfold deserialize. cbn [loads dumps json_bytes python_json json] in *.
  rewrite (loads_bytes_list _ e _ _ python_floats_ok W S). reflexivity.
Qed.
Lemma json_bytes_text b m : deserialize python_json b = Ok m -> deserialize json_bytes b = Ok m.
Proof.
  unfold deserialize, python_json. cbn [loads json json_bytes]. destruct (js_loads python_floats b) as [v|e] eqn:E; cbn [bind]; [|discriminate]. intros H.
  destruct (to_message_list _ _ H) as [l ->]. rewrite (loads_bytes_text _ _ _ E). exact H.
Qed.

(** ** With the parts left open *)
Lemma cbor_open_error U b e : deserialize (cbor_open U) b = Raise e -> parse_error e \/ (exists m, e = CodecError m) \/
  (exists t x r, tag_dec U t x r = Raise e) \/ exists k, hashable k = false /\ key_dec U k = Raise e.
Proof.
  unfold deserialize. destruct (loads (cbor_open U) b) as [v|e'] eqn:L; cbn [bind].
  - intros H. left. exact (to_message_error v e H).
  - intros [= <-]. right. exact (cbor_open_total U b e' L).
Qed.
Lemma open_deserialize c c' b m : agrees (loads c b) (loads c' b) -> deserialize c b = Ok m -> deserialize c' b = Ok m.
Proof. unfold deserialize. intros A. destruct (loads c b) as [v|e]; cbn [bind]; [|discriminate]. rewrite (agrees_ok _ _ v A eq_refl). auto. Qed.
Lemma open_dumps U v : (cbor_value v -> dumps (cbor_open U) v = dumps cbor v) /\ (msgpack_value v -> dumps (msgpack_open U) v = dumps msgpack v) /\
  (json_value v -> dumps (json_open U python_floats) v = dumps python_json v).
Proof.
  split; [|split]; intros H.
  - destruct (cbor_round_trip v H) as (b & D & _). apply cbor_open_dumps. rewrite D. discriminate.
  - destruct (msgpack_round_trip v H) as (b & D & _). apply msgpack_open_dumps. rewrite D. discriminate.
  - destruct (python_json_round_trip v H) as (b & D & _). apply json_open_dumps. fold python_json. rewrite D. discriminate.
Qed.
Lemma open_round_trip U m : wf_message m ->
  (cbor_value (VList (marshal m)) -> exists b, serialize (cbor_open U) m = Ok b /\ deserialize (cbor_open U) b = Ok (normalise m)) /\
  (msgpack_value (VList (marshal m)) -> exists b, serialize (msgpack_open U) m = Ok b /\ deserialize (msgpack_open U) b = Ok (normalise m)) /\
  (json_value (VList (marshal m)) ->
   exists b, serialize (json_open U python_floats) m = Ok b /\ deserialize (json_open U python_floats) b = Ok (normalise m)).
Proof.
  intros W. split; [|split]; intros H; apply serializer_round_trip; try exact W.
  - apply cbor_open_round_trip, cbor_round_trip, H.
  - apply msgpack_open_round_trip, msgpack_round_trip, H.
  - apply json_open_round_trip. exact (python_json_round_trip _ H).
Qed.
