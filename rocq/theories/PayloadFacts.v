(** * PayloadFacts: decoding payloads (payload.py). *)
From Coq Require Import String Ascii List ZArith Bool Lia.
From Verif Require Import PyBase Encoding EncodingFacts Messages Parse Serializer CodecBase SpecCodec MsgPack Cbor Json JsonBytes Float Codecs Utf8 Utf8Facts
  CodecFacts CborFacts MsgPackFacts JsonFacts JsonBytesFacts CodecsFacts
  SpecFormat FormatFacts SpecCbor SpecMsgPack SpecJson CborFormat MsgPackFormat JsonFormat FormatMessages SpecPayload.
Import ListNotations.
Local Open Scope Z_scope.

Lemma py_eq_same k z : python_value k -> py_eq_int k z = true <-> same_key k (VInt z).
Proof.
  intros P. rewrite (py_eq_int_iff k z P). rewrite <- amount_int. split.
  - intros A. destruct k; try discriminate A; cbn [same_key]; left; eauto.
  - destruct k; cbn [same_key]; (intros [(n & A & B)|(f & _ & B & _)]; [congruence|discriminate B]).
Qed.
Lemma dict_index_iff i x d : Forall (fun e => python_value (fst e)) d -> dict_index d i = Ok x <-> entry i x (VDict d).
Proof.
  intros P. split.
  - induction P as [|[k y] d Pk P IH]; cbn [dict_index]; [discriminate|]. cbn [fst] in Pk. destruct (py_eq_int k i) eqn:E.
    + intros [= ->]. apply (entry_dict i x [] k d); [apply py_eq_same; assumption|]. intros k' y [].
    + intros H. apply IH in H. inversion H as [|d' k' r S N]; subst. apply (entry_dict i x ((k, y) :: d') k' r); [exact S|].
      intros k2 y2 [[= -> ->]|I]; [|exact (N k2 y2 I)]. intros S2. apply py_eq_same in S2; [congruence|exact Pk].
  - intros H. inversion H as [|d' k r S N]; subst. clear H. induction d' as [|[k' y] d' IH]; cbn [app dict_index] in *.
    + inversion P; subst. destruct (py_eq_int k i) eqn:E; [reflexivity|]. apply py_eq_same in S; [congruence|assumption].
    + inversion P; subst. destruct (py_eq_int k' i) eqn:E; [exfalso; apply (N k' y); [left; reflexivity|]; apply py_eq_same; assumption|].
      apply IH; [assumption|]. intros k2 y2 I. apply (N k2 y2). right. exact I.
Qed.
Lemma dict_index_error i d e : dict_index d i = Raise e -> e = KeyError.
Proof. induction d as [|[k y] d IH]; cbn [dict_index]; [congruence|]. destruct (py_eq_int k i); [discriminate|exact IH]. Qed.
Lemma list_index_iff (i : nat) x l : nth_error l i = Some x <-> entry (Z.of_nat i) x (VList l).
Proof.
  split.
  - intros H. apply nth_error_split in H as (a & r & -> & L). constructor. unfold count. lia.
  - intros H. inversion H as [a r C|]; subst. unfold count in C. assert (length a = i) as <- by lia.
    rewrite nth_error_app2 by lia. rewrite Nat.sub_diag. reflexivity.
Qed.
Lemma here_keys d : everywhere python_value (VDict d) -> Forall (fun e => python_value (fst e)) d.
Proof.
  intros H. apply everywhere_dict in H as [_ H]. revert H. apply Forall_impl. intros [k x]. cbn. intros [H _]. apply everywhere_here in H. exact H.
Qed.

(** The length of a str. *)
Definition trail (z : Z) : bool := (128 <=? z) && (z <? 192).
Definition leads (os : list Z) : list Z := filter (fun z => negb (trail z)) os.
Lemma str_len_leads s : str_len s = length (leads (map value (encode_str s))).
Proof.
  induction s as [|a s IH]; [reflexivity|]. change (encode_str (String a s)) with (a :: encode_str s). unfold leads in *. cbn [str_len map filter].
  assert (T : utf8_continuation a = trail (value a)).
  { unfold utf8_continuation, trail, value. cbv zeta. f_equal.
    - apply eq_true_iff_eq. rewrite N.leb_le, Z.leb_le. lia.
    - apply eq_true_iff_eq. rewrite N.ltb_lt, Z.ltb_lt. lia. }
  rewrite T. destruct (trail (value a)); cbn [negb]; [exact IH|]. cbn [length]. rewrite IH. reflexivity.
Qed.
Lemma trail_yes b : 0 <= b < 64 -> trail (128 + b) = true.
Proof. intros H. unfold trail. apply andb_true_iff. rewrite Z.leb_le, Z.ltb_lt. lia. Qed.
Lemma trail_no z : z < 128 \/ 192 <= z -> trail z = false.
Proof. intros H. unfold trail. apply andb_false_iff. rewrite Z.leb_gt, Z.ltb_ge. lia. Qed.
Lemma leads_app a b : leads (a ++ b) = leads a ++ leads b.
Proof. apply filter_app. Qed.
Lemma leads_char p o : SpecFormat.utf8_char p o -> length (leads o) = 1%nat.
Proof.
  intros H; destruct H; unfold leads; cbn [filter]; rewrite ?trail_yes by lia; rewrite trail_no by lia; reflexivity.
Qed.
Lemma chars_leads ps os : chars ps os -> length (leads os) = length ps.
Proof.
  induction 1 as [|p ps o os C _ IH|b c ps os B C _ IH]; [reflexivity| |].
  - rewrite leads_app, app_length, (leads_char p o C), IH. reflexivity.
  - unfold leads in *. cbn [filter]. rewrite !trail_yes by lia. rewrite trail_no by lia. cbn [negb length]. rewrite IH. reflexivity.
Qed.
Lemma str_len_of ps s : str_of ps s -> Z.of_nat (str_len s) = count ps.
Proof. intros H. rewrite str_len_leads, (chars_leads _ _ H). reflexivity. Qed.
Lemma str_has_text s : python_value (VStr s) -> exists ps, str_of ps s.
Proof.
  cbn [python_value]. unfold is_str. destruct (str_points (encode_str s)) as [ps|] eqn:E; [|discriminate]. intros _. exists ps.
  apply encode_str_points in E as [E C]. unfold str_of. apply chars_iff. split; [exact C|]. rewrite E. reflexivity.
Qed.
Lemma py_len_iff v n : python_value v -> py_len v = Ok n <-> size v (Z.of_nat n).
Proof.
  intros P. split.
  - destruct v; cbn [py_len]; try discriminate; intros [= <-].
    + destruct (str_has_text s P) as [ps H]. rewrite (str_len_of ps s H). constructor. exact H.
    + apply size_bytes. + apply size_list. + apply size_dict.
  - intros H. inversion H as [l E|d E|ps s S E|b E]; subst; cbn [py_len]; unfold count in *; try (f_equal; lia).
    apply str_len_of in S. unfold count in S. f_equal. lia.
Qed.
Lemma py_len_error v e : py_len v = Raise e -> (exists s, e = TypeError s) /\ forall n, ~ size v n.
Proof. destruct v; cbn [py_len]; try discriminate; intros [= <-]; (split; [eauto|]; intros n H; inversion H). Qed.
Lemma size_unique v n m : size v n -> size v m -> n = m.
Proof.
  intros A B. inversion A; subst; inversion B; subst; try reflexivity. match goal with H : str_of ?x ?s, K : str_of ?y ?s |- _ => apply str_len_of in H, K; lia end.
Qed.
Lemma py_index_iff v i x : everywhere python_value v -> (exists l, v = VList l) \/ (exists d, v = VDict d) ->
  py_index v i = Ok x <-> entry (Z.of_nat i) x v.
Proof.
  intros P [[l ->]|[d ->]]; cbn [py_index].
  - rewrite <- list_index_iff. destruct (nth_error l i); split; congruence.
  - apply dict_index_iff. apply here_keys. exact P.
Qed.

Lemma decode_container v n a k : everywhere python_value v -> (exists l, v = VList l) \/ (exists d, v = VDict d) ->
  size v (Z.of_nat n) -> n <> O -> (n <= 2)%nat ->
  (let! args := py_index v 0 in
   match args with
   | VList a =>
       if (n =? 2)%nat then
         let! k := py_index v 1 in
         match k with
         | VDict kw => Ok (Some a, Some kw)
         | _ => Raise (TypeError "kwargs element is not dict")
         end
       else Ok (Some a, None)
   | _ => Raise (TypeError "args element is not list")
   end) = Ok (a, k) <-> payload v a k.
Proof.
  intros P C L N0 N2. assert (U : forall m, size v m -> m = Z.of_nat n) by (intros m S; exact (size_unique v m _ S L)).
  assert (I0 : forall x, py_index v 0 = Ok x <-> entry 0 x v) by (intros x; exact (py_index_iff v 0 x P C)).
  assert (I1 : forall x, py_index v 1 = Ok x <-> entry 1 x v) by (intros x; exact (py_index_iff v 1 x P C)).
  split.
  - destruct (py_index v 0) as [x|e] eqn:E0; cbn [bind]; [|discriminate]. destruct x; try discriminate. pose proof (proj1 (I0 _) eq_refl) as F0.
    destruct (Nat.eqb_spec n 2) as [->|N].
    + destruct (py_index v 1) as [x|e] eqn:E1; cbn [bind]; [|discriminate]. destruct x; try discriminate. pose proof (proj1 (I1 _) eq_refl) as F1.
      intros [= <- <-]. apply payload_both; assumption.
    + intros [= <- <-]. assert (n = 1%nat) as -> by lia. apply payload_args; assumption.
  - intros H; inversion H as [S|a0 S E|a0 k0 S E F]; subst.
    + apply U in S. lia.
    + apply I0 in E. rewrite E. cbn [bind]. apply U in S. destruct (Nat.eqb_spec n 2); [lia|reflexivity].
    + apply I0 in E. apply I1 in F. rewrite E, F. cbn [bind]. apply U in S. destruct (Nat.eqb_spec n 2); [reflexivity|lia].
Qed.
Lemma decode_exact v a k : everywhere python_value v -> decode v = Ok (a, k) <-> payload v a k.
Proof.
  intros P. pose proof (everywhere_here _ _ P) as P0. unfold decode. destruct (py_len v) as [n|e] eqn:L; cbn [bind].
  2:{ destruct (py_len_error v e L) as [_ N]. split; [discriminate|]. intros H; inversion H; subst; exfalso; eapply N; eassumption. }
  apply (py_len_iff v n P0) in L.
  assert (U : forall m, size v m -> m = Z.of_nat n) by (intros m S; exact (size_unique v m _ S L)).
  destruct (Nat.eqb_spec n 0) as [->|N0].
  { split; [intros [= <- <-]; constructor; exact L|]. intros H; inversion H as [S|a0 S E|a0 k0 S E F]; subst; [reflexivity| |]; apply U in S; discriminate. }
  destruct (Nat.ltb_spec 2 n) as [N2|N2].
  { split; [discriminate|]. intros H; inversion H as [S|a0 S E|a0 k0 S E F]; subst; apply U in S; lia. }
  destruct v as [|y|y|y|s|s|l|d|o t]; try (inversion L; fail).
  - cbn [py_index bind]. split; [discriminate|]. intros H; inversion H as [S|a0 S E|a0 k0 S E F]; subst; [apply U in S; lia|inversion E|inversion E].
  - cbn [py_index bind]. split; [discriminate|]. intros H; inversion H as [S|a0 S E|a0 k0 S E F]; subst; [apply U in S; lia|inversion E|inversion E].
  - apply decode_container; eauto.
  - apply decode_container; eauto.
Qed.

(** How decoding fails. *)
Definition type_error (e : exn) : Prop := exists s, e = TypeError s.
Definition value_error (e : exn) : Prop := exists s, e = ValueError s.
Lemma decode_error v e : everywhere python_value v -> decode v = Raise e ->
  too_long v /\ value_error e \/ lacks_key v /\ e = KeyError \/ ~ too_long v /\ type_error e.
Proof.
  intros P. pose proof (everywhere_here _ _ P) as P0. unfold decode. destruct (py_len v) as [n|e'] eqn:L; cbn [bind].
  2:{ destruct (py_len_error v e' L) as [T N]. intros [= <-]. right. right. split; [intros (n & S & _); exact (N n S)|exact T]. }
  apply (py_len_iff v n P0) in L. destruct (Nat.eqb_spec n 0) as [->|N0]; [discriminate|].
  destruct (Nat.ltb_spec 2 n) as [N2|N2].
  { intros [= <-]. left. split; [|eexists; reflexivity]. exists (Z.of_nat n). split; [exact L|lia]. }
  assert (NT : ~ too_long v). { intros (m & S & M). pose proof (size_unique v m _ S L). lia. }
  assert (I : forall i x, (i < n)%nat -> py_index v i = Raise x -> lacks_key v /\ x = KeyError \/ type_error x).
  { intros i x Li. destruct v as [|y|y|y|s|s|l|d|o t]; try (inversion L; fail); cbn [py_index]; try discriminate.
    - destruct (nth_error l i) eqn:E; [discriminate|]. intros _. exfalso. apply nth_error_None in E. inversion L. unfold count in *. lia.
    - intros E. left. split; [|exact (dict_index_error _ _ _ E)]. exists d, (Z.of_nat i). split; [reflexivity|].
      assert (C : count d = Z.of_nat n) by (inversion L; reflexivity). split; [lia|]. split; [lia|]. intros z H.
      apply dict_index_iff in H; [congruence|]. apply here_keys. exact P. }
  assert (T : forall s, Raise (A := option (list val) * option dict) (TypeError s) = Raise e -> too_long v /\ value_error e \/ lacks_key v /\ e = KeyError \/ ~ too_long v /\ type_error e).
  { intros s [= <-]. right. right. split; [exact NT|]. eexists; reflexivity. }
  destruct (py_index v 0) as [x|x] eqn:E0; cbn [bind].
  - destruct x; try (apply T). destruct (Nat.eqb_spec n 2) as [->|N]; [|discriminate].
    destruct (py_index v 1) as [x|x] eqn:E1; cbn [bind]; [destruct x; try discriminate; apply T|].
    intros [= <-]. apply I in E1; [|lia]. tauto.
  - intros [= <-]. apply I in E0; [|lia]. tauto.
Qed.
(** A dict without key 0 is the only way to a KeyError, and it does raise one. *)
Lemma decode_key_error d : Forall (fun e => python_value (fst e)) d -> 0 < count d <= 2 -> (forall x, ~ entry 0 x (VDict d)) -> decode (VDict d) = Raise KeyError.
Proof.
  intros P C N. unfold decode. cbn [py_len bind py_index]. unfold count in C. destruct (Nat.eqb_spec (length d) 0); [lia|].
  destruct (Nat.ltb_spec 2 (length d)); [lia|]. destruct (dict_index d (Z.of_nat 0)) as [x|e] eqn:E; [|apply dict_index_error in E as ->; reflexivity].
  apply dict_index_iff in E; [|exact P]. exfalso. exact (N x E).
Qed.

(** Through the codecs. *)
Lemma payload_empty c a k : decode_payload c [] = Ok (a, k) <-> a = None /\ k = None.
Proof. cbn [decode_payload]. split; [intros [= <- <-]; auto|intros [-> ->]; reflexivity]. Qed.
Lemma payload_loads c b v : b <> [] -> loads c b = Ok v -> decode_payload c b = decode v.
Proof. intros N E. destruct b; [contradiction|]. cbn [decode_payload]. rewrite E. reflexivity. Qed.
Lemma payload_exact c b a k : (forall v, loads c b = Ok v -> everywhere python_value v) ->
  decode_payload c b = Ok (a, k) <-> (b = [] /\ a = None /\ k = None) \/ (b <> [] /\ exists v, loads c b = Ok v /\ payload v a k).
Proof.
  intros P. destruct b as [|x b]; [rewrite payload_empty; split; [tauto|intros [H|[H _]]; [tauto|contradiction]]|].
  cbn [decode_payload]. split.
  - destruct (loads c (x :: b)) as [v|e] eqn:L; cbn [bind]; [|discriminate]. intros D. right. split; [discriminate|]. exists v. split; [reflexivity|].
    apply decode_exact; auto.
  - intros [[H _]|[_ (v & L & D)]]; [discriminate|]. rewrite L. cbn [bind]. apply decode_exact; auto.
Qed.
Lemma cbor_python b v : loads cbor b = Ok v -> everywhere python_value v.
Proof. intros L. cbn [loads cbor] in L. destruct (cb_loads_total b) as [(w & E & H)|[[m E]|E]]; [congruence|congruence|]. congruence. Qed.
Lemma msgpack_python b v : loads msgpack b = Ok v -> everywhere python_value v.
Proof. intros L. cbn [loads msgpack] in L. destruct (mp_loads_total b) as [(w & E & H)|[m E]]; congruence. Qed.

(** A JSON text has no NUL and begins with an ASCII character: Python takes its octets for UTF-8. *)
Definition positive (t : list Z) : Prop := Forall (fun c => 0 < c) t.
Lemma positive_app a b : positive (a ++ b) <-> positive a /\ positive b. Proof. apply Forall_app. Qed.
Lemma positive_cons c t : positive (c :: t) <-> 0 < c /\ positive t.
Proof. split; [intros H; inversion H; auto|intros [A B]; constructor; assumption]. Qed.
Lemma blank_positive w : SpecJson.blank w -> positive w.
Proof. apply Forall_impl. cbn [In]. lia. Qed.
Lemma digits_positive d : Forall digit d -> positive d.
Proof. apply Forall_impl. unfold digit. lia. Qed.
Lemma hexdigit_positive n c : hexdigit n c -> 0 < c. Proof. intros H; inversion H; lia. Qed.
Lemma unit_positive u x : SpecJson.unit u x -> positive x.
Proof. intros H; inversion H; subst. repeat (apply positive_cons; split; [try lia; eapply hexdigit_positive; eassumption|]). constructor. Qed.
Lemma body_positive s t : body s t -> positive t.
Proof.
  induction 1 as [|c s t A B C _ IH|e c s t E _ IH|u w x y s t X _ Y _ _ IH|u x s t X _ _ IH].
  - constructor.
  - apply positive_cons. split; [lia|exact IH].
  - apply positive_cons. split; [lia|]. apply positive_cons. split; [|exact IH].
    unfold escapes in E. cbn [In] in E. decompose [or] E; try contradiction; match goal with H : _ = (e, c) |- _ => injection H; lia end.
  - rewrite !positive_app. apply unit_positive in X, Y. auto.
  - rewrite !positive_app. apply unit_positive in X. auto.
Qed.
Lemma sign_positive m s : sign m s -> positive s. Proof. intros H; inversion H; repeat constructor. Qed.
Lemma whole_positive i : whole i -> positive i.
Proof. intros H; inversion H; subst; [repeat constructor|]. apply positive_cons. split; [lia|]. apply digits_positive. assumption. Qed.
Lemma fraction_positive d f : fraction d f -> positive f.
Proof. intros H; inversion H; subst; [constructor|]. apply positive_cons. split; [lia|]. apply digits_positive. assumption. Qed.
Lemma power_positive x e : power x e -> positive e.
Proof.
  intros H; inversion H as [|c d I N D|c d I N D|c d I N D]; subst; [constructor| | |]; cbn [In] in I; apply digits_positive in D;
    repeat (apply positive_cons; split; [lia|]); exact D.
Qed.
Ltac words := apply Forall_forall; intros c I; vm_compute in I; decompose [or] I; try contradiction; lia.
Scheme element_m := Induction for element Sort Prop
  with items_m := Induction for SpecJson.items Sort Prop
  with members_m := Induction for members Sort Prop
  with pair_m := Induction for SpecJson.pair Sort Prop.
Combined Scheme element_all from element_m, items_m, members_m, pair_m.
Lemma texts_positive l :
  (forall v t, element l v t -> positive t) /\ (forall v t, SpecJson.items l v t -> positive t) /\
  (forall v t, members l v t -> positive t) /\ (forall k v t, SpecJson.pair l k v t -> positive t).
Proof.
  apply (element_all l (fun v t _ => positive t) (fun v t _ => positive t) (fun v t _ => positive t) (fun k v t _ => positive t)); intros;
    repeat match goal with
           | H : SpecJson.blank _ |- _ => apply blank_positive in H
           | H : sign _ _ |- _ => apply sign_positive in H
           | H : whole _ |- _ => apply whole_positive in H
           | H : fraction _ _ |- _ => apply fraction_positive in H
           | H : power _ _ |- _ => apply power_positive in H
           | H : body _ _ |- _ => apply body_positive in H
           end; try words;
    repeat first [assumption | apply positive_cons; split; [lia|] | apply positive_app; split | apply Forall_nil].
Qed.
Definition starts (t : list Z) : Prop := exists c r, t = c :: r /\ c < 128.
Lemma element_starts l v t : element l v t -> starts t.
Proof.
  assert (W : forall i r, whole i -> starts (i ++ r)).
  { intros i r H. inversion H; subst; cbn [app]; (eexists _, _; split; [reflexivity|lia]). }
  assert (S : forall m s i r, sign m s -> whole i -> starts (s ++ i ++ r)).
  { intros m s i r H K. inversion H; subst; cbn [app]; [apply W; exact K|]. eexists _, _; split; [reflexivity|lia]. }
  intros H; inversion H; subst;
    match goal with
    | |- starts (_ :: _) => eexists _, _; split; [reflexivity|lia]
    | |- starts (word _) => eexists _, _; split; [vm_compute; reflexivity|lia]
    | |- starts (?s ++ ?i) => first [eapply S; eassumption | rewrite <- (app_nil_r i); eapply S; eassumption]
    end.
Qed.
Lemma document_starts l v t : document l v t -> starts t /\ positive t.
Proof.
  intros (w & u & w' & B & E & B' & ->). pose proof (proj1 (texts_positive l) _ _ E) as P. split.
  - destruct B as [|c w C B]; cbn [app]; [destruct (element_starts _ _ _ E) as (c & r & -> & H); cbn [app]; exists c, (r ++ w'); auto|].
    exists c, (w ++ u ++ w'). split; [reflexivity|]. cbn [In] in C. lia.
  - apply positive_app. split; [apply blank_positive; exact B|]. apply positive_app. split; [exact P|apply blank_positive; exact B'].
Qed.
Lemma json_bytes_reads l v t b : chars t (map value b) -> document l v t -> loads json_bytes b = Ok v.
Proof.
  intros C D. pose proof (document_reads _ _ _ D) as J. cbn [loads json_bytes]. unfold js_loads_bytes.
  assert (P : str_points b = Some t) by (apply chars_iff in C as [C E]; apply map_value_inj in E as ->; apply str_points_encode; exact C).
  assert (E : detect_encoding b = Utf8).
  { destruct (document_starts _ _ _ D) as [(c & r & -> & Lt) Po]. apply positive_cons in Po as [Hc Po]. destruct r as [|c1 r].
    - apply encode_str_points in P as [<- _]. unfold utf8_encode. cbn [flat_map]. unfold Utf8.utf8_char. destruct (Z.ltb_spec c 128); [|lia]. cbn [app].
      unfold detect_encoding. cbn [starts_with]. rewrite byte_Z_of by lia.
      repeat match goal with |- context [?k =? c] => destruct (Z.eqb_spec k c); [lia|]; cbn [andb] end. reflexivity.
    - apply positive_cons in Po as [H1 _]. apply (detect_text b _ P). exists c, c1, r. split; [reflexivity|]. split; lia. }
  rewrite E. cbn [decode_as]. rewrite P. exact J.
Qed.

Lemma cbor_payload b a k : deserialize_payload python_codecs CBOR_SERIALIZER_ID b = Ok (a, k) <->
  (b = [] /\ a = None /\ k = None) \/ (exists c r v, b = c ++ r /\ SpecCbor.item true v c /\ payload v a k).
Proof.
  change (deserialize_payload python_codecs CBOR_SERIALIZER_ID b) with (decode_payload cbor b). rewrite payload_exact by apply cbor_python.
  apply or_iff_compat_l. split.
  - intros (_ & v & L & P). apply cbor_exact in L as (c & r & E & I). eauto 8.
  - intros (c & r & v & E & I & P). assert (L : loads cbor b = Ok v) by (apply cbor_exact; eauto). split; [intros ->; discriminate L|eauto].
Qed.
Lemma msgpack_payload b a k : deserialize_payload python_codecs MSGPACK_SERIALIZER_ID b = Ok (a, k) <->
  (b = [] /\ a = None /\ k = None) \/ (exists v, SpecMsgPack.item 1024 v b /\ payload v a k).
Proof.
  change (deserialize_payload python_codecs MSGPACK_SERIALIZER_ID b) with (decode_payload msgpack b). rewrite payload_exact by apply msgpack_python.
  apply or_iff_compat_l. split.
  - intros (_ & v & L & P). apply msgpack_exact in L. eauto.
  - intros (v & I & P). apply msgpack_exact in I. split; [intros ->; discriminate I|eauto].
Qed.
Lemma json_payload t b v : chars t (map value b) -> document true v t ->
  forall a k, deserialize_payload python_codecs JSON_SERIALIZER_ID b = Ok (a, k) <-> payload v a k.
Proof.
  intros C D a k. change (deserialize_payload python_codecs JSON_SERIALIZER_ID b) with (decode_payload json_bytes b).
  pose proof (json_bytes_reads true v t b C D) as L.
  rewrite (payload_loads json_bytes b v); [|intros ->; vm_compute in L; discriminate L|exact L]. apply decode_exact.
  assert (J : loads python_json b = Ok v) by (apply json_exact; eauto). cbn [loads python_json json] in J.
  destruct (js_loads_total python_floats FloatFacts.python_floats_bounded b) as [(w & E & H)|[m E]]; congruence.
Qed.
Lemma not_only_arrays :
  deserialize_payload python_codecs 1 (encode_str "{""a"":1}") = Raise KeyError /\
  exists b d, SpecCbor.item false (VDict d) b /\ deserialize_payload python_codecs 3 b = Ok (Some [VInt 7], None).
Proof.
  split; [vm_compute; reflexivity|]. exists (map octet [161; 0; 129; 7]), [(VInt 0, VList [VInt 7])]. split; [|vm_compute; reflexivity].
  apply (c_map false [(VInt 0, VList [VInt 7])] _ [octet 161] (map octet [0; 129; 7])).
  - apply (head_here 5 1). lia.
  - apply (c_pairs_more false (VInt 0) (VList [VInt 7]) [] [octet 0] (map octet [129; 7]) []); [|exact Logic.I| |constructor].
    + apply c_unsigned. apply (head_here 0 0). lia.
    + apply (c_array false [VInt 7] [octet 129] [octet 7]); [apply (head_here 4 1); lia|].
      apply (c_items_more false (VInt 7) [] [octet 7] []); [|constructor]. apply c_unsigned. apply (head_here 0 7). lia.
  - apply (collect_new [] [] (VInt 0) (VList [VInt 7])); [constructor|]. intros k y [].
Qed.
