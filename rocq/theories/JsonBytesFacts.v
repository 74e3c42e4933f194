(** * JsonBytesFacts: [json.loads] on bytes. *)
From Coq Require Import String Ascii List ZArith Bool Lia.
From Verif Require Import PyBase Rawsocket Encoding EncodingFacts Utf8 Utf8Facts CodecBase CodecFacts Messages Serializer SpecCodec MsgPack MsgPackFacts
  Json JsonFacts JsonBytes SpecJsonBytes Float FloatFacts.
Import ListNotations.
Local Open Scope Z_scope.

Lemma ascii_not_high c : c < 128 -> is_high c = false.
Proof. intros C. unfold is_high. destruct (Z.leb_spec 55296 c); [lia|reflexivity]. Qed.
Lemma unit16_ascii le c : 0 < c < 128 -> unit16 le (if le then byte_of c else byte_of 0) (if le then byte_of 0 else byte_of c) = c.
Proof. intros C. unfold unit16. destruct le; rewrite !byte_Z_of by lia; lia. Qed.
Lemma unit32_ascii le c : 0 < c < 128 ->
  unit32 le (if le then byte_of c else byte_of 0) (byte_of 0) (byte_of 0) (if le then byte_of 0 else byte_of c) = c.
Proof. intros C. unfold unit32, unit16. destruct le; rewrite !byte_Z_of by lia; lia. Qed.
Lemma utf16_wide le t : ascii_text t -> utf16_decode le (wide16 le (map byte_of t)) = Some t.
Proof.
  induction 1 as [|c t C _ IH]; [reflexivity|]. cbn [map wide16 flat_map]. fold (wide16 le (map byte_of t)).
  pose proof (unit16_ascii le c C) as U.
  assert (E : forall x y, unit16 le x y = c -> utf16_decode le (x :: y :: wide16 le (map byte_of t)) = Some (c :: t)).
  { intros x y Q. cbn [utf16_decode]. rewrite Q. rewrite (ascii_not_high c) by lia. cbn [andb].
    destruct (wide16 le (map byte_of t)) as [|x' [|y' r']]; rewrite IH; reflexivity. }
  destruct le; apply E; exact U.
Qed.
Lemma utf32_wide le t : ascii_text t -> utf32_decode le (wide32 le (map byte_of t)) = Some t.
Proof.
  induction 1 as [|c t C _ IH]; [reflexivity|]. cbn [map wide32 flat_map]. fold (wide32 le (map byte_of t)).
  pose proof (unit32_ascii le c C) as U.
  assert (E : forall x y z w, unit32 le x y z w = c -> utf32_decode le (x :: y :: z :: w :: wide32 le (map byte_of t)) = Some (c :: t)).
  { intros x y z w Q. cbn [utf32_decode]. rewrite Q. unfold is_code. destruct (Z.leb_spec 0 c); [|lia]. destruct (Z.leb_spec c 1114111); [|lia].
    cbn [andb]. rewrite IH. reflexivity. }
  destruct le; apply E; exact U.
Qed.

Lemma zero_of c : 0 < c < 128 -> zero (byte_of c) = false.
Proof. intros C. unfold zero. rewrite byte_Z_of by lia. apply Z.eqb_neq. lia. Qed.
(** An ASCII text that begins with a bracket is recognised in every encoding. *)
Lemma detect_encoded e t : ascii_text t -> (exists c t', t = 91 :: c :: t') -> detect_encoding (encode_as e (map byte_of t)) = e.
Proof.
  intros A (c & t' & ->). inversion A as [|? ? _ A1]; subst. inversion A1 as [|? ? C A2]; subst. pose proof (zero_of c C) as Z.
  assert (C0 : (0 =? byte_Z (byte_of c)) = false) by (apply Z.eqb_neq; rewrite byte_Z_of by lia; lia).
  destruct e as [| |le|le|le|le]; try destruct le; cbn [encode_as map wide16 wide32 flat_map app]; unfold detect_encoding; cbn [starts_with];
    change (byte_Z (byte_of 91)) with 91; change (byte_Z (byte_of 0)) with 0; try reflexivity;
    cbn [Z.eqb Pos.eqb andb]; change (zero (byte_of 91)) with false; change (zero (byte_of 0)) with true; cbv iota; rewrite ?Z; try reflexivity.
  destruct t' as [|d [|d' t']]; cbn [map]; reflexivity.
Qed.
Lemma decode_encoded e t : ascii_text t -> decode_as e (encode_as e (map byte_of t)) = Some t.
Proof.
  intros A. destruct e as [| |le|le|le|le]; cbn [decode_as encode_as].
  - apply utf8_ascii; exact A.
  - apply (utf8_ascii t A).
  - apply utf16_wide; exact A.
  - destruct le; apply (utf16_wide _ t A).
  - apply utf32_wide; exact A.
  - destruct le; apply (utf32_wide _ t A).
Qed.
Lemma loads_encoded fl e t : ascii_text t -> (exists c t', t = 91 :: c :: t') ->
  js_loads_bytes fl (encode_as e (map byte_of t)) = js_loads fl (map byte_of t).
Proof. intros A S. unfold js_loads_bytes, js_loads. rewrite (detect_encoded e t A S), (decode_encoded e t A), (utf8_ascii t A). reflexivity. Qed.

(** The text of a list. *)
Lemma list_text fl l t : floats_ok fl -> everywhere json_here (VList l) -> js_enc fl (VList l) = Ok t -> ascii_text t /\ exists c t', t = 91 :: c :: t'.
Proof.
  intros FL W E. destruct (js_good_all fl FL (VList l) W) as (t' & E' & S & A & D & _). assert (t' = t) by congruence. subst t'. split; [exact A|].
  cbn [js_enc] in E. unfold cat_t in E. cbn [bind] in E. destruct (_ true l) as [u|e]; [|discriminate]. cbn [bind app] in E. injection E as <-.
  destruct u as [|c u]; [|eauto]. cbn in D. lia.
Qed.
Lemma loads_bytes_list fl e l b : floats_ok fl -> everywhere json_here (VList l) -> js_dumps fl (VList l) = Ok b ->
  js_loads_bytes fl (encode_as e b) = js_loads fl b.
Proof.
  intros FL W E. unfold js_dumps in E. destruct (js_enc fl (VList l)) as [t|x] eqn:T; [|discriminate]. cbn [bind] in E. injection E as <-.
  destruct (list_text fl l t FL W T). apply loads_encoded; assumption.
Qed.

(** Any octets give a value or a ValueError. *)
Lemma js_loads_bytes_total fl b : floats_bounded fl -> (exists v, js_loads_bytes fl b = Ok v) \/ (exists m, js_loads_bytes fl b = Raise (ValueError m)).
Proof.
  intros FB. unfold js_loads_bytes. destruct (decode_as _ b) as [t|]; [|eauto]. unfold js_decode.
  pose proof (skip_ws_length t). pose proof (js_dec_total fl FB (S (length t)) (skip_ws t) ltac:(lia)) as T.
  destruct (js_dec fl (S (length t)) (skip_ws t)) as [[v r]|e]; cbn [bind].
  - destruct (skip_ws r); [left; eauto|right; unfold js_error; eauto].
  - cbn in T. destruct e; try contradiction; eauto.
Qed.

(** A text that gives a list begins with a bracket or white space, and the next character is not NUL. *)
Lemma js_dec_nul fl f r x : js_dec fl f (0 :: r) <> Ok x.
Proof. destruct f; cbn [js_dec]; [discriminate|]. change (0 =? 34) with false. change (0 =? 91) with false. change (0 =? 123) with false. discriminate. Qed.
Lemma ws_range c : is_ws c = true -> 0 < c < 128.
Proof. unfold is_ws. rewrite !orb_true_iff, !Z.eqb_eq. lia. Qed.
Lemma js_elems_nul fl f n r x : js_elems (js_dec fl f) n (0 :: r) <> Ok x.
Proof. destruct n; cbn [js_elems]; [discriminate|]. pose proof (js_dec_nul fl f r) as N. destruct (js_dec fl f (0 :: r)); [exfalso; eapply N; reflexivity|discriminate]. Qed.
Lemma list_text_head fl f t l r : js_dec fl f (skip_ws t) = Ok (VList l, r) ->
  exists c0 c1 t', t = c0 :: c1 :: t' /\ 0 < c0 < 128 /\ c1 <> 0.
Proof.
  destruct t as [|c0 t]; [destruct f; discriminate|]. cbn [skip_ws]. destruct (is_ws c0) eqn:W.
  - intros H. destruct t as [|c1 t]; [destruct f; discriminate|]. exists c0, c1, t. split; [reflexivity|]. split; [apply ws_range; exact W|].
    intros ->. cbn [skip_ws] in H. change (is_ws 0) with false in H. exact (js_dec_nul _ _ _ _ H).
  - destruct f as [|f]; [discriminate|]. cbn [js_dec]. destruct (Z.eqb_spec c0 34).
    { destruct (js_string t) as [[k q]|x]; cbn [bind]; discriminate. }
    destruct (Z.eqb_spec c0 91) as [->|N].
    + destruct f as [|g]; [discriminate|]. cbn [js_nest]. set (f := S g) in *. destruct t as [|c1 t]; [discriminate|]. intros H. exists 91, c1, t.
      split; [reflexivity|]. split; [lia|]. intros ->. cbn [skip_ws] in H. change (is_ws 0) with false in H. change (0 =? 93) with false in H. cbv iota in H.
      destruct (js_elems (js_dec fl f) _ (0 :: t)) as [[l' q]|e] eqn:J; [exact (js_elems_nul _ _ _ _ _ J)|discriminate].
    + destruct (c0 =? 123).
      { destruct f as [|g]; [discriminate|]. cbn [js_nest]. destruct (skip_ws t) as [|e r1]; [discriminate|]. destruct (e =? 125); [discriminate|].
        destruct (js_members _ _ _ _) as [[d q]|x]; discriminate. }
      unfold js_word. repeat match goal with |- context [strip ?p ?q] => destruct (strip p q); [discriminate|] end.
      destruct (js_number (c0 :: t)) as [[u q]|]; [|discriminate]. unfold number_value. destruct (n_rest u); [destruct (MAX_DIGITS <? zlen (n_int u))|]; discriminate.
Qed.
Lemma utf8_char_head c : c <> 0 -> is_code c = true -> exists a r, utf8_char c = a :: r /\ zero a = false.
Proof.
  intros N C. unfold is_code in C. apply andb_true_iff in C. destruct C as [C1 C2]. apply Z.leb_le in C1, C2. unfold utf8_char, zero.
  destruct (Z.ltb_spec c 128); [eexists _, _; split; [reflexivity|]; rewrite byte_Z_of by lia; apply Z.eqb_neq; lia|].
  destruct (Z.ltb_spec c 2048); [eexists _, _; split; [reflexivity|]; rewrite byte_Z_of by (pose proof (Z.div_lt_upper_bound c 64 32); pose proof (Z.div_pos c 64); lia); apply Z.eqb_neq; pose proof (Z.div_pos c 64); lia|].
  destruct (Z.ltb_spec c 65536); [eexists _, _; split; [reflexivity|]; rewrite byte_Z_of by (pose proof (Z.div_lt_upper_bound c 4096 16); pose proof (Z.div_pos c 4096); lia); apply Z.eqb_neq; pose proof (Z.div_pos c 4096); lia|].
  eexists _, _; split; [reflexivity|]; rewrite byte_Z_of by (pose proof (Z.div_lt_upper_bound c 262144 16); pose proof (Z.div_pos c 262144); lia); apply Z.eqb_neq; pose proof (Z.div_pos c 262144); lia.
Qed.
Lemma detect_text b t : str_points b = Some t -> (exists c0 c1 t', t = c0 :: c1 :: t' /\ 0 < c0 < 128 /\ c1 <> 0) -> detect_encoding b = Utf8.
Proof.
  intros P (c0 & c1 & t' & -> & C0 & C1). apply encode_str_points in P. destruct P as [<- K]. cbn [forallb] in K. rewrite !andb_true_iff in K.
  destruct (utf8_char_head c1 C1 ltac:(tauto)) as (a & r & E & Z1). unfold utf8_encode. cbn [flat_map]. rewrite E.
  unfold utf8_char. destruct (Z.ltb_spec c0 128); [|lia]. cbn [app]. pose proof (zero_of c0 C0) as Z0.
  unfold detect_encoding. cbn [starts_with]. rewrite byte_Z_of by lia.
  repeat match goal with |- context [?k =? c0] => destruct (Z.eqb_spec k c0); [lia|]; cbn [andb] end. rewrite Z0, Z1.
  match goal with |- context [?x ++ ?y] => destruct (x ++ y) as [|? [|? ?]]; reflexivity end.
Qed.
Lemma loads_bytes_text fl b l : js_loads fl b = Ok (VList l) -> js_loads_bytes fl b = Ok (VList l).
Proof.
  unfold js_loads, js_loads_bytes. destruct (str_points b) as [t|] eqn:P; [|discriminate]. intros H.
  rewrite (detect_text b t P); [cbn [decode_as]; rewrite P; exact H|]. unfold js_decode in H.
  destruct (js_dec fl (S (length t)) (skip_ws t)) as [[v r]|e] eqn:D; cbn [bind] in H; [|discriminate]. destruct (skip_ws r); [|discriminate]. injection H as ->.
  exact (list_text_head _ _ _ _ _ D).
Qed.
