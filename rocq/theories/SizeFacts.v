(** * SizeFacts: how many octets a value is written in. *)
From Coq Require Import String Ascii List ZArith Bool Lia.
From Verif Require Import PyBase Encoding EncodingFacts Utf8 Utf8Facts Messages Parse Serializer CodecBase SpecCodec MsgPack Cbor Json JsonFacts JsonBytes Float FloatFacts Codecs
  SpecFormat FormatFacts LimitFacts SpecWeight WeightFacts ReprFacts.
Import ListNotations.
Local Open Scope Z_scope.

Definition bounded (K : Z) (v : val) (r : res bytes) : Prop := forall b, r = Ok b -> count b <= K * weight v.
Lemma cat_ok x y b : cat x y = Ok b -> exists a c, x = Ok a /\ y = Ok c /\ b = a ++ c.
Proof. unfold cat. destruct x as [a|]; [|discriminate]. destruct y as [c|]; [|discriminate]. cbn [bind]. intros [= <-]. eauto. Qed.
Lemma count_be n z : count (to_be n z) = Z.of_nat n.
Proof. unfold count. rewrite to_be_length. reflexivity. Qed.
Lemma encode_bound s x : strict_encode s = Ok x -> x = encode_str s.
Proof. unfold strict_encode. destruct (utf8_valid _); [intros [= <-]; reflexivity|discriminate]. Qed.

(** ** CBOR *)
Lemma cb_head_len major n : count (cb_head major n) <= 9.
Proof. unfold cb_head. destruct (n <? 24), (n <? 2 ^ 8), (n <? 2 ^ 16), (n <? 2 ^ 32); rewrite ?count_cons, ?count_be; unfold count; cbn [length]; lia. Qed.
Lemma cb_bignum_len tag z w : 0 < z -> 1 + Z.log2 z / 8 <= w -> 9 <= w -> count (cb_bignum tag z) <= 9 * w.
Proof.
  intros P W N. unfold cb_bignum. rewrite !count_app, count_be. pose proof (cb_head_len 6 tag). set (n := (bit_length z + 7) / 8). pose proof (cb_head_len 2 n).
  assert (n = 1 + Z.log2 z / 8). { unfold n, bit_length. destruct (Z.eqb_spec z 0); [lia|]. replace (Z.log2 z + 1 + 7) with (Z.log2 z + 1 * 8) by lia. rewrite Z.div_add by lia. lia. }
  pose proof (Z.log2_nonneg z). assert (0 <= Z.log2 z / 8) by (apply Z.div_pos; lia). rewrite Z2Nat.id by lia. lia.
Qed.
Lemma big_weight z : 2 ^ 64 <= Z.abs z -> 9 <= weight (VInt z).
Proof. intros H. cbn [weight]. assert (64 <= Z.log2 (Z.abs z)) by (apply Z.log2_le_pow2; lia). assert (8 <= Z.log2 (Z.abs z) / 8) by (apply Z.div_le_lower_bound; lia). lia. Qed.
Lemma cb_int_len z : count (cb_int z) <= 9 * weight (VInt z).
Proof.
  pose proof (weight_pos (VInt z)) as W. unfold cb_int. destruct (Z.leb_spec 0 z).
  - destruct (Z.ltb_spec z (2 ^ 64)); [pose proof (cb_head_len 0 z); lia|]. apply cb_bignum_len; [lia| |apply big_weight; lia]. cbn [weight]. rewrite Z.abs_eq by lia. lia.
  - destruct (Z.leb_spec (- 2 ^ 64) z); [pose proof (cb_head_len 1 (- (z + 1))); lia|]. apply cb_bignum_len; [lia| |apply big_weight; lia]. cbn [weight].
    assert (Z.log2 (- z - 1) <= Z.log2 (Z.abs z)) by (apply Z.log2_le_mono; lia). pose proof (Z.div_le_mono (Z.log2 (- z - 1)) (Z.log2 (Z.abs z)) 8 ltac:(lia) ltac:(lia)). lia.
Qed.
Lemma cb_enc_len : forall v, bounded 9 v (cb_enc v).
Proof.
  fix IH 1. intros [|bb|z|f|s|b0|l|d|] b H; cbn [cb_enc] in H.
  - injection H as <-. cbn. lia.
  - injection H as <-. cbn. lia.
  - injection H as <-. apply cb_int_len.
  - injection H as <-. unfold cb_float. cbn [weight]. destruct (is_nan f); [cbn; lia|]. destruct (f =? INF); [cbn; lia|]. destruct (f =? 2 ^ 63 + INF); [cbn; lia|].
    rewrite count_cons, count_be. lia.
  - destruct (strict_encode s) as [x|] eqn:E; [|discriminate H]. cbn [bind] in H. injection H as <-. apply encode_bound in E. subst x. rewrite count_app. pose proof (cb_head_len 3 (zlen (encode_str s))).
    cbn [weight]. pose proof (count_nonneg (encode_str s)). lia.
  - injection H as <-. rewrite count_app. pose proof (cb_head_len 2 (zlen b0)). cbn [weight]. pose proof (count_nonneg b0). lia.
  - apply cat_ok in H as (h & r & Eh & Er & ->). injection Eh as <-. rewrite count_app, weight_list. pose proof (cb_head_len 4 (zlen l)). enough (count r <= 9 * wl l) by lia.
    clear - IH Er. revert r Er. induction l as [|x l L]; intros r Er; [injection Er as <-; cbn; lia|]. apply cat_ok in Er as (a & c & Ea & Ec & ->).
    rewrite count_app. apply IH in Ea. apply L in Ec. unfold wl in *. cbn [fold_right]. lia.
  - apply cat_ok in H as (h & r & Eh & Er & ->). injection Eh as <-. rewrite count_app, weight_dict. pose proof (cb_head_len 5 (zlen d)). enough (count r <= 9 * wd d) by lia.
    clear - IH Er. revert r Er. induction d as [|[k x] d L]; intros r Er; [injection Er as <-; cbn; lia|]. apply cat_ok in Er as (a & c & Ea & Ec & ->).
    apply cat_ok in Ec as (a' & c' & Ea' & Ec' & ->). rewrite !count_app. apply IH in Ea, Ea'. apply L in Ec'. unfold wd in *. cbn [fold_right fst snd]. lia.
  - discriminate H.
Qed.

(** ** MessagePack *)
Lemma Ok_inj {A} (x y : A) : Ok x = Ok y -> x = y.
Proof. intros [= H]. exact H. Qed.
Ltac head_len := repeat match goal with |- (if ?c then _ else _) = Ok _ -> _ => destruct c end;
  intros H; first [apply Ok_inj in H; rewrite <- H; clear H; rewrite ?count_cons, ?count_be; change (count (@nil ascii)) with 0; lia | discriminate H].
Lemma mp_int_len z b : mp_int z = Ok b -> count b <= 9. Proof. unfold mp_int. head_len. Qed.
Lemma mp_str_head_len n b : mp_str_head n = Ok b -> count b <= 9. Proof. unfold mp_str_head. head_len. Qed.
Lemma mp_bin_head_len n b : mp_bin_head n = Ok b -> count b <= 9. Proof. unfold mp_bin_head. head_len. Qed.
Lemma mp_array_head_len n b : mp_array_head n = Ok b -> count b <= 9. Proof. unfold mp_array_head. head_len. Qed.
Lemma mp_map_head_len n b : mp_map_head n = Ok b -> count b <= 9. Proof. unfold mp_map_head. head_len. Qed.
Lemma mp_pack_len : forall v n, bounded 9 v (mp_pack n v).
Proof.
  fix IH 1. intros v n b H. destruct v as [|bb|z|f|s|b0|l|d|]; cbn [mp_pack] in H; (destruct (n <? 0); [discriminate H|]).
  - injection H as <-. cbn. lia.
  - injection H as <-. cbn. lia.
  - apply mp_int_len in H. pose proof (weight_pos (VInt z)). lia.
  - apply Ok_inj in H. subst b. cbn [weight]. rewrite count_cons, count_be. lia.
  - destruct (strict_encode s) as [x|] eqn:E; [|discriminate H]. cbn [bind] in H. apply encode_bound in E. subst x. apply cat_ok in H as (h & r & Eh & [= <-] & ->). apply mp_str_head_len in Eh.
    rewrite count_app. cbn [weight]. pose proof (count_nonneg (encode_str s)). lia.
  - apply cat_ok in H as (h & r & Eh & [= <-] & ->). apply mp_bin_head_len in Eh. rewrite count_app. cbn [weight]. pose proof (count_nonneg b0). lia.
  - apply cat_ok in H as (h & r & Eh & Er & ->). apply mp_array_head_len in Eh. rewrite count_app, weight_list. enough (count r <= 9 * wl l) by lia.
    clear - IH Er. revert r Er. induction l as [|x l L]; intros r Er; [injection Er as <-; cbn; lia|]. apply cat_ok in Er as (a & c & Ea & Ec & ->).
    rewrite count_app. apply IH in Ea. apply L in Ec. unfold wl in *. cbn [fold_right]. lia.
  - apply cat_ok in H as (h & r & Eh & Er & ->). apply mp_map_head_len in Eh. rewrite count_app, weight_dict. enough (count r <= 9 * wd d) by lia.
    clear - IH Er. revert r Er. induction d as [|[k x] d L]; intros r Er; [injection Er as <-; cbn; lia|]. apply cat_ok in Er as (a & c & Ea & Ec & ->).
    apply cat_ok in Ec as (a' & c' & Ea' & Ec' & ->). rewrite !count_app. apply IH in Ea, Ea'. apply L in Ec'. unfold wd in *. cbn [fold_right fst snd]. lia.
  - discriminate H.
Qed.

(** ** JSON *)
Lemma cat_t_ok x y b : cat_t x y = Ok b -> exists a c, x = Ok a /\ y = Ok c /\ b = a ++ c.
Proof. unfold cat_t. destruct x as [a|]; [|discriminate]. destruct y as [c|]; [|discriminate]. cbn [bind]. intros [= <-]. eauto. Qed.
Lemma js_char_len p : count (js_char p) <= 12.
Proof. unfold js_char. repeat match goal with |- context [if ?c then _ else _] => destruct c; [cbn; lia|] end. cbv zeta. rewrite count_app. cbn. lia. Qed.
Lemma js_str_len s t : js_str s = Ok t -> count t <= 28 * weight (VStr s) - 4.
Proof.
  unfold js_str. destruct (str_points (encode_str s)) as [ps|] eqn:E; [|discriminate]. intros [= <-]. apply str_points_length in E. cbn [weight].
  rewrite count_cons, count_app. assert (F : count (flat_map js_char ps) <= 12 * count ps). { clear. induction ps as [|p ps IH]; [cbn; lia|]. cbn [flat_map]. rewrite count_app, count_cons. pose proof (js_char_len p). lia. }
  change (count [34]) with 1. unfold count in *. lia.
Qed.
Lemma js_int_len z t : js_int z = Ok t -> count t <= 4 * weight (VInt z).
Proof.
  unfold js_int. destruct (MAX_DIGITS <? _); [discriminate|]. intros [= <-]. pose proof (weight_pos (VInt z)) as W.
  assert (A : forall y, 0 < y -> count (codes (str_of_Z y)) <= 3 * weight (VInt y)).
  { intros y Y. change (codes (str_of_Z y)) with (dec_digits y). change (count (dec_digits y)) with (zlen (dec_digits y)).
    pose proof (Z.log2_spec y Y) as [_ L]. cbn [weight]. rewrite Z.abs_eq by lia. set (q := Z.log2 y / 8). pose proof (Z.log2_nonneg y).
    assert (Q : Z.log2 y < 8 * (1 + q)). { unfold q. pose proof (Z.div_mod (Z.log2 y) 8 ltac:(lia)). pose proof (Z.mod_pos_bound (Z.log2 y) 8 ltac:(lia)). lia. }
    assert (0 <= q) by (apply Z.div_pos; lia). apply dec_digits_le; [lia|lia|]. apply Z.lt_le_trans with (2 ^ (8 * (1 + q))).
    - apply Z.lt_le_trans with (2 ^ Z.succ (Z.log2 y)); [exact L|]. apply Z.pow_le_mono_r; lia.
    - rewrite !Z.pow_mul_r by lia. apply Z.pow_le_mono_l. split; [lia|]. vm_compute. discriminate. }
  destruct (Z.lt_trichotomy z 0) as [N|[->|P]].
  - rewrite (codes_neg z N), count_cons. specialize (A (- z) ltac:(lia)). replace (weight (VInt (- z))) with (weight (VInt z)) in A by (cbn [weight]; rewrite Z.abs_opp; reflexivity). lia.
  - cbn. lia.
  - specialize (A z P). lia.
Qed.
Lemma shortest_same f f' fuel : f_E f = f_E f' -> f_M f = f_M f' -> f_abs f = f_abs f' -> forall p n d k, shortest fuel p f n d k = shortest fuel p f' n d k.
Proof. intros E M A. induction fuel as [|fuel IH]; intros p n d k; cbn [shortest]; [rewrite E, M; reflexivity|]. rewrite A. destruct (find _ _); [reflexivity|apply IH]. Qed.
Lemma js_float_len f : count (js_float python_floats f) <= 24.
Proof.
  unfold js_float. destruct (is_nan f) eqn:N; [cbn; lia|]. destruct (f =? INF); [cbn; lia|]. destruct (f =? 2 ^ 63 + INF); [cbn; lia|].
  change (float_repr python_floats f) with (repr_float f). destruct (Z.eq_dec (f_expo f) 2047) as [E|E].
  - assert (M0 : f_mant f = 0). { unfold is_nan in N. rewrite E in N. cbn [Z.eqb andb] in N. change (2047 =? 2047) with true in N. cbn [andb] in N. apply negb_false_iff in N. apply Z.eqb_eq. exact N. }
    destruct (f_fields f) as (_ & _ & A). assert (EM : f_M f = f_M INF /\ f_E f = f_E INF /\ f_abs f = f_abs INF).
    { unfold f_M, f_E. rewrite A, E, M0. repeat split; reflexivity. }
    destruct EM as (M1 & E1 & A1). assert (FF : f_fraction f = f_fraction INF) by (unfold f_fraction; rewrite M1, E1; reflexivity).
    unfold repr_float. rewrite M1, FF. destruct (f_fraction INF) as [n d] eqn:ND. rewrite (shortest_same f INF 17 E1 M1 A1).
    assert (C : count (if f_M INF =? 0 then codes "0.0" else let (n, d) := f_fraction INF in let (m, x) := shortest 17 1 INF n d (decpt n d) in let ds := strip_zeros (dec_digits m) in format_digits ds (zlen (dec_digits m) + x)) <= 8) by (vm_compute; discriminate).
    rewrite ND in C. rewrite count_app. destruct (f_sign f); cbn [count length] in *; [change (count [45]) with 1|change (count (@nil Z)) with 0]; lia.
  - destruct (repr_spec f E) as (m & x & _ & _ & _ & _ & _ & L). exact L.
Qed.
Lemma js_key_len k t : js_key python_floats k = Ok t -> count t <= 28 * weight k - 2.
Proof.
  pose proof (weight_pos k). destruct k as [|b|z|f|s|b0|l|d|]; cbn [js_key]; try discriminate.
  - intros [= <-]. cbn. lia.
  - intros [= <-]. destruct b; cbn; lia.
  - destruct (js_int z) as [u|] eqn:E; [|discriminate]. cbn [bind]. intros [= <-]. apply js_int_len in E. rewrite count_cons, count_app. change (count [34]) with 1. lia.
  - intros [= <-]. rewrite count_cons, count_app. change (count [34]) with 1. pose proof (js_float_len f). cbn [weight]. lia.
  - intros E. apply js_str_len in E. lia.
Qed.
Lemma js_enc_len : forall v t, js_enc python_floats v = Ok t -> count t <= 28 * weight v - 4.
Proof.
  fix IH 1. intros v t H. pose proof (weight_pos v) as W. destruct v as [|b|z|f|s|b0|l|d|]; cbn [js_enc] in H; try discriminate H.
  - injection H as <-. cbn. lia.
  - injection H as <-. destruct b; cbn; lia.
  - apply js_int_len in H. lia.
  - injection H as <-. pose proof (js_float_len f). cbn [weight]. lia.
  - apply js_str_len in H. exact H.
  - apply cat_t_ok in H as (h & r & [= <-] & Er & ->). cbn [app]. rewrite count_cons, weight_list. enough (count r <= 28 * wl l + 1) by lia. clear W. revert Er. generalize true. revert r.
    induction l as [|x l L]; intros r first Er; [injection Er as <-; cbn; lia|]. apply cat_t_ok in Er as (a & c & [= <-] & Ec & ->). apply cat_t_ok in Ec as (a' & c' & Ea & Ec & ->).
    apply IH in Ea. apply L in Ec. rewrite !count_app. unfold wl in *. cbn [fold_right]. assert (count (if first then [] else [44; 32]) <= 2) by (destruct first; cbn; lia). lia.
  - apply cat_t_ok in H as (h & r & [= <-] & Er & ->). cbn [app]. rewrite count_cons, weight_dict. enough (count r <= 28 * wd d + 1) by lia. clear W. revert Er. generalize true. revert r.
    induction d as [|[k x] d L]; intros r first Er; [injection Er as <-; cbn; lia|]. apply cat_t_ok in Er as (a & c & [= <-] & Ec & ->). apply cat_t_ok in Ec as (a' & c' & Ea & Ec & ->).
    apply cat_t_ok in Ec as (a2 & c2 & [= <-] & Ec & ->). apply cat_t_ok in Ec as (a3 & c3 & Ex & Ec & ->).
    apply js_key_len in Ea. apply IH in Ex. apply L in Ec. rewrite !count_app. unfold wd in *. cbn [fold_right fst snd]. assert (count (if first then [] else [44; 32]) <= 2) by (destruct first; cbn; lia).
    change (count [58; 32]) with 2. lia.
Qed.
Lemma cbor_size v b : dumps cbor v = Ok b -> count b <= 9 * weight v. Proof. apply cb_enc_len. Qed.
Lemma msgpack_size v b : dumps msgpack v = Ok b -> count b <= 9 * weight v. Proof. apply mp_pack_len. Qed.
Lemma json_size v b : dumps python_json v = Ok b -> count b <= 28 * weight v.
Proof.
  cbn [python_json json dumps]. unfold js_dumps. destruct (js_enc python_floats v) as [t|] eqn:E; [|discriminate]. cbn [bind]. intros [= <-]. apply js_enc_len in E.
  unfold count in *. rewrite map_length. lia.
Qed.
Lemma python_size c v b : is_closed_codec c -> dumps c v = Ok b -> count b <= 28 * weight v.
Proof. pose proof (weight_pos v). intros [->|[->| ->]] H0; [apply json_size in H0|apply msgpack_size in H0|apply cbor_size in H0]; lia. Qed.
