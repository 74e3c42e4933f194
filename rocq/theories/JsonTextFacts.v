(** * JsonTextFacts: [json.loads] on the encodings of any text. *)
From Coq Require Import String Ascii List ZArith Bool Lia.
From Verif Require Import PyBase Rawsocket Encoding EncodingFacts Utf8 Utf8Facts CodecBase CodecFacts Messages Serializer SpecCodec
  Json JsonFacts JsonBytes SpecJsonBytes SpecJsonText JsonBytesFacts Float FloatFacts Codecs CodecsFacts.
Import ListNotations.
Local Open Scope Z_scope.

Ltac zdm := Z.div_mod_to_equations; lia.
Lemma octets16_eq le u : octets16 le u = [byte_of (if le then u mod 256 else u / 256); byte_of (if le then u / 256 else u mod 256)].
Proof. destruct le; reflexivity. Qed.
Lemma unit16_octets le u : 0 <= u < 65536 -> unit16 le (byte_of (if le then u mod 256 else u / 256)) (byte_of (if le then u / 256 else u mod 256)) = u.
Proof. intros U. unfold unit16. destruct le; rewrite !byte_Z_of by zdm; zdm. Qed.
Lemma first_unit le u r x y r' : octets16 le u ++ r = x :: y :: r' -> 0 <= u < 65536 -> unit16 le x y = u.
Proof. intros E U. rewrite octets16_eq in E. cbn [app] in E. injection E as <- <- _. apply unit16_octets, U. Qed.
(** The first unit of a text. *)
Lemma utf16_single le u r : 0 <= u < 65536 -> (is_high u = false \/ forall x y r', r = x :: y :: r' -> is_low (unit16 le x y) = false) ->
  utf16_decode le (octets16 le u ++ r) = cons_opt u (utf16_decode le r).
Proof.
  intros U H. rewrite octets16_eq. cbn [app utf16_decode]. rewrite unit16_octets by exact U. destruct r as [|x [|y r']]; [reflexivity|reflexivity|].
  destruct H as [->|H]; [reflexivity|]. rewrite (H x y r' eq_refl), andb_false_r. reflexivity.
Qed.
Lemma utf16_two le h l r : 55296 <= h < 56320 -> 56320 <= l < 57344 -> utf16_decode le (octets16 le h ++ octets16 le l ++ r) = cons_opt (pair_code h l) (utf16_decode le r).
Proof.
  intros H L. rewrite !octets16_eq. cbn [app utf16_decode]. rewrite !unit16_octets by lia. unfold is_high, is_low.
  destruct (Z.leb_spec 55296 h); [|lia]. destruct (Z.ltb_spec h 56320); [|lia]. destruct (Z.leb_spec 56320 l); [|lia]. destruct (Z.ltb_spec l 57344); [|lia]. reflexivity.
Qed.
Lemma utf16_text le t : forallb is_code t = true -> (forall a h l b, t = a ++ h :: l :: b -> 55296 <= h < 56320 -> 56320 <= l < 57344 -> False) ->
  utf16_decode le (flat_map (char16 le) t) = Some t.
Proof.
  induction t as [|c t IH]; [reflexivity|]. cbn [forallb flat_map]. intros K N. apply andb_true_iff in K. destruct K as [C K]. unfold is_code in C. apply andb_true_iff in C.
  destruct C as [C1 C2]. apply Z.leb_le in C1, C2. specialize (IH K). assert (N' : forall a h l b, t = a ++ h :: l :: b -> 55296 <= h < 56320 -> 56320 <= l < 57344 -> False).
  { intros a h l b ->. exact (N (c :: a) h l b eq_refl). }
  specialize (IH N'). unfold char16. destruct (Z.ltb_spec c 65536) as [S|S].
  - fold (char16 le). rewrite utf16_single; [rewrite IH; reflexivity|lia|]. destruct (is_high c) eqn:H; [right|left; reflexivity].
    { intros x y r' E. destruct t as [|d t]; [discriminate|]. cbn [flat_map] in E. unfold char16 in E. cbn [forallb] in K. apply andb_true_iff in K. destruct K as [D _].
      unfold is_code in D. apply andb_true_iff in D. destruct D as [D1 D2]. apply Z.leb_le in D1, D2. unfold is_high in H. apply andb_true_iff in H. destruct H as [H1 H2]. apply Z.leb_le in H1. apply Z.ltb_lt in H2.
      destruct (Z.ltb_spec d 65536) as [Sd|Sd]; rewrite <- ?app_assoc in E; rewrite (first_unit _ _ _ _ _ _ E) by (first [lia|pose proof (Z.div_lt_upper_bound (d - 65536) 1024 1024); pose proof (Z.div_pos (d - 65536) 1024); lia]); unfold is_low.
      * destruct (Z.leb_spec 56320 d); [|reflexivity]. destruct (Z.ltb_spec d 57344); [|reflexivity]. exfalso. apply (N [] c d t eq_refl); lia.
      * destruct (Z.leb_spec 56320 (55296 + (d - 65536) / 1024)); [pose proof (Z.div_lt_upper_bound (d - 65536) 1024 1024); lia|reflexivity]. }
  - fold (char16 le). rewrite <- app_assoc, utf16_two by zdm. rewrite IH. unfold pair_code. cbn [cons_opt]. do 2 f_equal. zdm.
Qed.
Lemma utf32_text le t : forallb is_code t = true -> utf32_decode le (flat_map (char32 le) t) = Some t.
Proof.
  induction t as [|c t IH]; [reflexivity|]. cbn [forallb flat_map]. intros K. apply andb_true_iff in K. destruct K as [C K]. specialize (IH K). pose proof C as C'.
  unfold is_code in C'. apply andb_true_iff in C'. destruct C' as [C1 C2]. apply Z.leb_le in C1, C2.
  assert (U : unit32 le (byte_of (if le then c mod 256 else c / 16777216)) (byte_of (if le then c / 256 mod 256 else c / 65536 mod 256))
                        (byte_of (if le then c / 65536 mod 256 else c / 256 mod 256)) (byte_of (if le then c / 16777216 else c mod 256)) = c).
  { unfold unit32, unit16. destruct le; rewrite !byte_Z_of by zdm; zdm. }
  destruct le; unfold char32 at 1; cbn [map app utf32_decode]; rewrite U, C, IH; reflexivity.
Qed.
Lemma zero_byte z : 0 <= z < 256 -> zero (byte_of z) = (z =? 0).
Proof. intros C. unfold zero. rewrite byte_Z_of by lia. reflexivity. Qed.
(** A text that begins with an ASCII character and no NUL in the second place is recognised in every encoding. *)
Lemma detect_encoded_text e c0 c1 t : forallb is_code (c0 :: c1 :: t) = true -> 0 < c0 < 128 -> c1 <> 0 -> detect_encoding (encode_text e (c0 :: c1 :: t)) = e.
Proof.
  intros K C0 C1. pose proof K as K'. cbn [forallb] in K'. rewrite !andb_true_iff in K'. destruct K' as (_ & D & _).
  pose proof D as D'. unfold is_code in D'. apply andb_true_iff in D'. destruct D' as [D1 D2]. apply Z.leb_le in D1, D2.
  assert (M : c0 mod 256 = c0) by (apply Z.mod_small; lia). assert (V : c0 / 256 = 0) by (apply Z.div_small; lia).
  assert (V2 : c0 / 65536 = 0) by (apply Z.div_small; lia). assert (V3 : c0 / 16777216 = 0) by (apply Z.div_small; lia).
  assert (B : byte_Z (byte_of c0) = c0) by (apply byte_Z_of; lia). pose proof (zero_of c0 C0) as Z0.
  assert (Q : forall k, k = 0 \/ 128 <= k -> (k =? c0) = false) by (intros k Hk; apply Z.eqb_neq; lia).
  destruct e as [| |le|le|le|le].
  - apply detect_text with (1 := str_points_encode _ K). exists c0, c1, t. auto.
  - reflexivity.
  - assert (E : exists x y r, char16 le c1 = x :: y :: r /\ zero x && zero y = false).
    { unfold char16. destruct (Z.ltb_spec c1 65536); rewrite octets16_eq; cbn [app]; eexists _, _, _; (split; [reflexivity|]); destruct le; rewrite !zero_byte by zdm;
        apply andb_false_iff; rewrite !Z.eqb_neq; zdm. }
    destruct E as (x & y & r & E & Z1). cbn [encode_text flat_map]. rewrite E. unfold char16. destruct (Z.ltb_spec c0 65536); [|lia]. unfold octets16. rewrite M, V.
    destruct le; cbn [map app]; unfold detect_encoding; cbn [starts_with]; rewrite B; change (byte_Z (byte_of 0)) with 0; rewrite !Q by lia; cbn [Z.eqb andb];
      change (zero (byte_of 0)) with true; rewrite Z0; [rewrite Z1|]; reflexivity.
  - cbn [encode_text flat_map]. unfold char16 at 1. destruct (Z.ltb_spec c0 65536); [|lia]. unfold octets16. rewrite M, V.
    destruct le; cbn [map app]; unfold detect_encoding; cbn [starts_with]; change (byte_Z (byte_of 255)) with 255; change (byte_Z (byte_of 254)) with 254; rewrite ?B; rewrite ?Q by lia; reflexivity.
  - cbn [encode_text flat_map]. unfold char32 at 1. rewrite M, V, V2, V3. change (0 mod 256) with 0.
    destruct le; cbn [map app]; unfold detect_encoding; cbn [starts_with]; rewrite ?B; change (byte_Z (byte_of 0)) with 0; rewrite ?Q by lia; cbn [Z.eqb andb];
      change (zero (byte_of 0)) with true; rewrite ?Z0; reflexivity.
  - cbn [encode_text]. destruct le; reflexivity.
Qed.
Lemma decode_encoded_text e t : forallb is_code t = true -> encodable_as e t -> decode_as e (encode_text e t) = Some t.
Proof.
  intros K N. destruct e as [| |le|le|le|le]; cbn [decode_as encode_text encodable_as] in *.
  - apply str_points_encode, K.
  - apply (str_points_encode _ K).
  - apply utf16_text; assumption.
  - destruct le; apply utf16_text; assumption.
  - apply utf32_text; assumption.
  - destruct le; apply (utf32_text _ _ K).
Qed.
Lemma json_text_encoded b t e m : str_points b = Some t -> encodable_as e t -> deserialize python_json b = Ok m -> deserialize json_bytes (encode_text e t) = Ok m.
Proof.
  intros P N. unfold deserialize, python_json. cbn [loads json json_bytes]. destruct (js_loads python_floats b) as [v|x] eqn:E; cbn [bind]; [|discriminate]. intros H.
  destruct (to_message_list _ _ H) as [l ->]. unfold js_loads in E. rewrite P in E. pose proof (encode_str_points _ _ P) as [_ K].
  assert (G : exists c0 c1 t', t = c0 :: c1 :: t' /\ 0 < c0 < 128 /\ c1 <> 0).
  { unfold js_decode in E. destruct (js_dec python_floats (S (length t)) (skip_ws t)) as [[v r]|x] eqn:D; cbn [bind] in E; [|discriminate]. destruct (skip_ws r); [|discriminate]. injection E as ->.
    exact (list_text_head _ _ _ _ _ D). }
  destruct G as (c0 & c1 & t' & -> & C0 & C1). unfold js_loads_bytes. rewrite detect_encoded_text, decode_encoded_text by assumption. rewrite E. exact H.
Qed.
