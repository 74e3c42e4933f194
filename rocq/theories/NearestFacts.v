(** * NearestFacts: [float(s)] gives the nearest binary64 number (SpecJson). *)
From Coq Require Import String Ascii List ZArith Bool Lia.
From Verif Require Import PyBase Rawsocket BitFacts Encoding EncodingFacts Utf8 CodecBase MsgPack Json JsonFacts Float FloatFacts
  SpecFormat FormatFacts SpecJson.
Import ListNotations.
Local Open Scope Z_scope.

(** ** The magnitudes, in the order of the bits *)
Definition mags (h : Z) : Z := mag (h / 2 ^ 52) (h mod 2 ^ 52).
Lemma mags_magnitude h : 0 <= h < 2 ^ 63 -> magnitude 11 52 h = mags h.
Proof.
  intros H. rewrite magnitude_mag. unfold mags, exponent, mantissa. f_equal. apply Z.mod_small. change (2 ^ 11) with (2 ^ 63 / 2 ^ 52).
  split; [apply Z.div_pos; lia|]. apply Z.div_lt_upper_bound; [lia|]. change (2 ^ 52 * (2 ^ 63 / 2 ^ 52)) with (2 ^ 63). lia.
Qed.
Lemma mags_lt g h : 0 <= g < h -> mags g < mags h.
Proof.
  intros H. unfold mags. pose proof (Z.mod_pos_bound g (2 ^ 52) ltac:(lia)). pose proof (Z.mod_pos_bound h (2 ^ 52) ltac:(lia)).
  pose proof (Z.div_mod g (2 ^ 52) ltac:(lia)). pose proof (Z.div_mod h (2 ^ 52) ltac:(lia)).
  apply mag_lt; [apply Z.div_pos; lia|assumption|assumption|lia].
Qed.
Lemma mags_le g h : 0 <= g <= h -> mags g <= mags h.
Proof. intros H. destruct (Z.eq_dec g h) as [->|N]; [lia|]. pose proof (mags_lt g h ltac:(lia)). lia. Qed.
Lemma mags_fields E m : 0 <= m < 2 ^ 52 -> mags (E * 2 ^ 52 + m) = mag E m.
Proof.
  intros M. unfold mags. rewrite Z.div_add_l, Z.div_small by lia. rewrite (Z.add_comm (E * 2 ^ 52)), Z.mod_add, Z.mod_small by lia. f_equal. lia.
Qed.
Lemma mags_scaled k q : 0 <= k -> 0 <= q <= 2 ^ 53 -> (k = 0 \/ 2 ^ 52 <= q) -> mags (k * 2 ^ 52 + q) = q * 2 ^ k.
Proof.
  intros K Q C. destruct (Z_lt_le_dec q (2 ^ 52)) as [L|L].
  - destruct C as [->|C]; [|lia]. rewrite mags_fields by lia. unfold mag. change (0 =? 0) with true. cbv iota. change (2 ^ 0) with 1. lia.
  - destruct (Z_lt_le_dec q (2 ^ 53)) as [L'|L'].
    + replace (k * 2 ^ 52 + q) with ((k + 1) * 2 ^ 52 + (q - 2 ^ 52)) by lia. rewrite mags_fields by lia. unfold mag.
      destruct (Z.eqb_spec (k + 1) 0); [lia|]. replace (k + 1 - 1) with k by lia. replace (2 ^ 52 + (q - 2 ^ 52)) with q by lia. reflexivity.
    + replace (k * 2 ^ 52 + q) with ((k + 2) * 2 ^ 52 + 0) by lia. rewrite mags_fields by lia. unfold mag.
      destruct (Z.eqb_spec (k + 2) 0); [lia|]. replace (k + 2 - 1) with (1 + k) by lia. rewrite Z.pow_add_r by lia. replace q with (2 ^ 52 * 2 ^ 1) by lia. ring.
Qed.

(** ** Scaling and rounding to an integer *)
Lemma scale2_le e j n d : 0 <= j -> 0 <= n -> 0 < d -> (pow2_le (e + j) n d = true <-> snd (scale2 e n d) * 2 ^ j <= fst (scale2 e n d)).
Proof.
  intros J N D. rewrite pow2_le_spec. unfold scale2. destruct (Z.leb_spec 0 e); cbn [fst snd].
  - destruct (Z.leb_spec 0 (e + j)); [|lia]. rewrite Z.pow_add_r by lia. rewrite Z.mul_assoc. reflexivity.
  - assert (P : 0 < 2 ^ (- e)) by (apply Z.pow_pos_nonneg; lia). destruct (Z.leb_spec 0 (e + j)).
    + replace (d * 2 ^ j) with (d * 2 ^ (e + j) * 2 ^ (- e)); [nia|]. rewrite <- Z.mul_assoc, <- Z.pow_add_r by lia. f_equal. f_equal. lia.
    + assert (0 < 2 ^ j) by (apply Z.pow_pos_nonneg; lia).
      replace (n * 2 ^ (- e)) with (n * 2 ^ (- (e + j)) * 2 ^ j); [nia|]. rewrite <- Z.mul_assoc, <- Z.pow_add_r by lia. f_equal. f_equal. lia.
Qed.
Lemma scale2_value e n d : -1074 <= e -> fst (scale2 e n d) * 2 ^ (e + 1074) * d = n * 2 ^ 1074 * snd (scale2 e n d).
Proof.
  intros E. unfold scale2. destruct (Z.leb_spec 0 e); cbn [fst snd].
  - rewrite Z.pow_add_r by lia. ring.
  - replace (n * 2 ^ 1074 * d) with (n * (2 ^ (- e) * 2 ^ (e + 1074)) * d); [ring|]. rewrite <- Z.pow_add_r by lia. do 3 f_equal. lia.
Qed.
Lemma round_even_spec a b : 0 <= a -> 0 < b -> let q := round_even a b in
  a / b <= q <= a / b + 1 /\ (2 * q - 1) * b <= 2 * a <= (2 * q + 1) * b /\ (2 * a = (2 * q - 1) * b -> Z.Even q) /\ (2 * a = (2 * q + 1) * b -> Z.Even q).
Proof.
  intros A B. cbv zeta. unfold round_even. pose proof (Z.div_mod a b ltac:(lia)) as E. pose proof (Z.mod_pos_bound a b B) as M.
  set (q := a / b) in *. set (r := a mod b) in *.
  destruct (Z.ltb_spec (2 * r) b). { repeat split; try lia; try nia; intros X; exfalso; nia. }
  destruct (Z.ltb_spec b (2 * r)). { repeat split; try lia; try nia; intros X; exfalso; nia. }
  destruct (Z.even q) eqn:V.
  - apply Z.even_spec in V. repeat split; try lia; try nia; intros X; exact V.
  - assert (V' : Z.Even (q + 1)). { apply Z.even_spec. rewrite Z.even_add, V. reflexivity. } repeat split; try lia; try nia; intros X; exact V'.
Qed.

(** ** The float found is the nearest *)
Lemma even_bits k q : Z.Even q -> Z.Even (k * 2 ^ 52 + q).
Proof. intros [x ->]. exists (k * 2 ^ 51 + x). change (2 ^ 52) with (2 * 2 ^ 51). ring. Qed.
Lemma scaled b s v a x : 0 < b -> 0 < s -> v * b = a * s -> (x * b <= a <-> x * s <= v) /\ (a <= x * b <-> v <= x * s) /\ (a = x * b <-> v = x * s).
Proof.
  intros B S E. rewrite (Z.mul_le_mono_pos_r (x * b) a s S), (Z.mul_le_mono_pos_r (x * s) v b B).
  rewrite (Z.mul_le_mono_pos_r a (x * b) s S), (Z.mul_le_mono_pos_r v (x * s) b B).
  rewrite <- (Z.mul_cancel_r a (x * b) s), <- (Z.mul_cancel_r v (x * s) b) by lia. rewrite E. replace (x * b * s) with (x * s * b) by ring. tauto.
Qed.
Lemma sum_below x y d v : 0 < d -> x < y -> 2 * y * d <= v -> (x + y) * d < v.
Proof. intros D L H. nia. Qed.
Lemma sum_above x y d v : 0 < d -> x < y -> v < 2 * x * d -> v < (x + y) * d.
Proof. intros D L H. nia. Qed.
Section Value.
  Context (n d : Z) (N : 0 < n) (D : 0 < d).
  Definition V : Z := 2 * n * 2 ^ 1074.
  (** Rounding with no largest exponent. *)
  Lemma round_between : exists h, round_q n d = Z.min INF h /\ 0 <= h /\
    (0 < h -> (mags (h - 1) + mags h) * d <= V /\ (V = (mags (h - 1) + mags h) * d -> Z.Even h)) /\
    V <= (mags h + mags (h + 1)) * d /\ (V = (mags h + mags (h + 1)) * d -> Z.Even h).
  Proof.
    unfold round_q. destruct (Z.eqb_spec n 0); [lia|]. set (e := Z.max (flog2 n d - 52) (-1074)).
    destruct (flog2_spec n d N D) as [F1 F2].
    assert (E0 : -1074 <= e) by lia.
    pose proof (scale2_pos e n d ltac:(lia) D) as [A B]. pose proof (scale2_value e n d E0) as W.
    assert (U : fst (scale2 e n d) < 2 ^ 53 * snd (scale2 e n d)).
    { destruct (Z_lt_le_dec (fst (scale2 e n d)) (2 ^ 53 * snd (scale2 e n d))) as [|C]; [assumption|]. exfalso.
      rewrite Z.mul_comm in C. apply scale2_le in C; [|lia|lia|lia].
      assert (pow2_le (flog2 n d + 1) n d = true); [|congruence]. apply (pow2_le_mono' (Z.to_nat (e + 53 - (flog2 n d + 1)))); [lia|lia|].
      replace (flog2 n d + 1 + Z.of_nat (Z.to_nat (e + 53 - (flog2 n d + 1)))) with (e + 53) by lia. exact C. }
    assert (L : e = -1074 \/ 2 ^ 52 * snd (scale2 e n d) <= fst (scale2 e n d)).
    { destruct (Z.eq_dec e (-1074)) as [|C]; [auto|right]. rewrite Z.mul_comm. apply scale2_le; [lia|lia|lia|]. replace (e + 52) with (flog2 n d) by lia. exact F1. }
    destruct (scale2 e n d) as [a b]. cbn [fst snd] in *. set (k := e + 1074) in *. pose proof (round_even_spec a b A B) as R. cbv zeta in R.
    set (q := round_even a b) in *. destruct R as (R0 & R1 & R2 & R3).
    assert (Q0 : 0 <= a / b) by (apply Z.div_pos; lia). assert (Q1 : a / b < 2 ^ 53) by (apply Z.div_lt_upper_bound; lia).
    assert (Q2 : k = 0 \/ 2 ^ 52 <= a / b) by (destruct L as [L|L]; [left; lia|right; apply Z.div_le_lower_bound; lia]).
    assert (K : 0 <= k) by lia. assert (P : 0 < 2 ^ k) by (apply Z.pow_pos_nonneg; lia).
    assert (W2 : V * b = 2 * a * (2 ^ k * d)) by (unfold V; lia).
    set (s := 2 ^ k * d) in *. assert (S0 : 0 < s) by (apply Z.mul_pos_pos; assumption).
    exists (k * 2 ^ 52 + q). split; [reflexivity|]. split; [lia|].
    assert (M0 : mags (k * 2 ^ 52 + q) = q * 2 ^ k) by (apply mags_scaled; lia).
    assert (Sc := fun x => scaled b s V (2 * a) x B S0 W2).
    assert (Fac : forall x y, (x * 2 ^ k + y * 2 ^ k) * d = (x + y) * s) by (intros; unfold s; ring).
    split; [|split].
    - intros H. destruct (Z.eq_dec q (2 ^ 52)) as [Eq|Nq]; [destruct (Z.eq_dec k 0) as [Ek|Nk]|].
      + assert (M1 : mags (k * 2 ^ 52 + q - 1) = (q - 1) * 2 ^ k) by (replace (k * 2 ^ 52 + q - 1) with (k * 2 ^ 52 + (q - 1)) by lia; apply mags_scaled; lia).
        rewrite M0, M1, Fac. replace (q - 1 + q) with (2 * q - 1) by lia. split; [apply Sc; apply R1|].
        intros X. apply even_bits, R2, Sc, X.
      + assert (X : mags (k * 2 ^ 52 + q - 1) < mags (k * 2 ^ 52 + q)) by (apply mags_lt; lia).
        assert (Y : 2 * mags (k * 2 ^ 52 + q) * d <= V). { rewrite M0, Eq. destruct L as [L|L]; [lia|]. replace (2 * (2 ^ 52 * 2 ^ k) * d) with (2 * 2 ^ 52 * s) by (unfold s; ring). apply Sc. lia. }
        pose proof (sum_below _ _ d V D X Y) as Z0. split; [lia|]. intros Z1. exfalso. lia.
      + assert (M1 : mags (k * 2 ^ 52 + q - 1) = (q - 1) * 2 ^ k) by (replace (k * 2 ^ 52 + q - 1) with (k * 2 ^ 52 + (q - 1)) by lia; apply mags_scaled; lia).
        rewrite M0, M1, Fac. replace (q - 1 + q) with (2 * q - 1) by lia. split; [apply Sc; apply R1|].
        intros X. apply even_bits, R2, Sc, X.
    - destruct (Z.eq_dec q (2 ^ 53)) as [Eq|Nq].
      + assert (X : mags (k * 2 ^ 52 + q) < mags (k * 2 ^ 52 + q + 1)) by (apply mags_lt; lia).
        assert (Y : V < 2 * mags (k * 2 ^ 52 + q) * d). { rewrite M0, Eq. replace (2 * (2 ^ 53 * 2 ^ k) * d) with (2 * 2 ^ 53 * s) by (unfold s; ring). destruct (Z_lt_le_dec V (2 * 2 ^ 53 * s)) as [|C]; [assumption|]. apply Sc in C. lia. }
        pose proof (sum_above _ _ d V D X Y) as Z0. lia.
      + assert (M1 : mags (k * 2 ^ 52 + q + 1) = (q + 1) * 2 ^ k) by (replace (k * 2 ^ 52 + q + 1) with (k * 2 ^ 52 + (q + 1)) by lia; apply mags_scaled; lia).
        rewrite M0, M1, Fac. replace (q + (q + 1)) with (2 * q + 1) by lia. apply Sc. apply R1.
    - destruct (Z.eq_dec q (2 ^ 53)) as [Eq|Nq].
      + intros _. apply even_bits. exists (2 ^ 52). lia.
      + assert (M1 : mags (k * 2 ^ 52 + q + 1) = (q + 1) * 2 ^ k) by (replace (k * 2 ^ 52 + q + 1) with (k * 2 ^ 52 + (q + 1)) by lia; apply mags_scaled; lia).
        rewrite M0, M1, Fac. replace (q + (q + 1)) with (2 * q + 1) by lia.
        intros X. apply even_bits, R3, Sc, X.
  Qed.
End Value.

Lemma nearest_mags n d g : nearest n d g <-> 0 <= g <= INF /\
  (0 < g -> (mags (g - 1) + mags g) * d <= V n /\ (V n = (mags (g - 1) + mags g) * d -> Z.Even g)) /\
  (g < INF -> V n <= (mags g + mags (g + 1)) * d /\ (V n = (mags g + mags (g + 1)) * d -> Z.Even g)).
Proof.
  unfold nearest, middle, V, Infinite, INF. split; intros (A & B & C); (split; [exact A|]).
  - split; intros H.
    + specialize (B H). rewrite !mags_magnitude in B by lia. replace (g - 1 + 1) with g in B by lia. exact B.
    + specialize (C H). rewrite !mags_magnitude in C by lia. exact C.
  - split; intros H.
    + specialize (B H). rewrite !mags_magnitude by lia. replace (g - 1 + 1) with g by lia. exact B.
    + specialize (C H). rewrite !mags_magnitude by lia. exact C.
Qed.
Lemma round_nearest n d : 0 <= n -> 0 < d -> nearest n d (round_q n d).
Proof.
  intros N D. apply nearest_mags. destruct (Z.eq_dec n 0) as [->|N0].
  { unfold round_q. change (0 =? 0) with true. cbv iota. split; [unfold INF; lia|]. split; [lia|]. intros _. unfold V. change (mags 0) with 0. change (mags (0 + 1)) with 1. split; [lia|]. intros; lia. }
  destruct (round_between n d ltac:(lia) D) as (h & -> & H0 & L & U1 & U2).
  destruct (Z_lt_le_dec INF h) as [C|C].
  2:{ rewrite Z.min_r by lia. split; [lia|]. split; [exact L|]. intros _. split; assumption. }
  - rewrite Z.min_l by lia. split; [unfold INF; lia|]. assert (P : 0 < INF) by reflexivity. split; [|lia]. intros _. destruct (L ltac:(lia)) as [L1 _].
    pose proof (mags_lt (INF - 1) INF ltac:(lia)) as X. pose proof (mags_le INF (h - 1) ltac:(lia)) as Y. pose proof (mags_lt (h - 1) h ltac:(lia)) as Z0.
    assert (W : (mags (INF - 1) + mags INF) * d < (mags (h - 1) + mags h) * d) by (apply Z.mul_lt_mono_pos_r; lia).
    split; [lia|]. intros E. exfalso. lia.
Qed.
Lemma nearest_less n d g h : 0 < d -> nearest n d g -> nearest n d h -> ~ g < h.
Proof.
  intros D G H L. apply nearest_mags in G as (G0 & _ & G2). apply nearest_mags in H as (H0 & H1 & _).
  specialize (G2 ltac:(lia)) as [G2 G3]. specialize (H1 ltac:(lia)) as [H1 H2].
  destruct (Z.eq_dec h (g + 1)) as [->|N].
  - replace (g + 1 - 1) with g in * by lia. assert (E : V n = (mags g + mags (g + 1)) * d) by lia. destruct (G3 E) as [x X]. destruct (H2 E) as [y Y]. lia.
  - pose proof (mags_lt g (h - 1) ltac:(lia)) as X. pose proof (mags_lt (g + 1) h ltac:(lia)) as Y.
    assert (W : (mags g + mags (g + 1)) * d < (mags (h - 1) + mags h) * d) by (apply Z.mul_lt_mono_pos_r; lia). lia.
Qed.
Lemma nearest_iff n d g : 0 <= n -> 0 < d -> (nearest n d g <-> g = round_q n d).
Proof.
  intros N D. split; [|intros ->; apply round_nearest; assumption]. intros G. pose proof (round_nearest n d N D) as R.
  pose proof (nearest_less n d _ _ D G R). pose proof (nearest_less n d _ _ D R G). lia.
Qed.
Lemma nearest_decimal_iff m x g : 0 <= m -> (nearest_decimal m x g <-> g = of_decimal m x).
Proof.
  intros M. unfold nearest_decimal, of_decimal, dec_fraction. destruct (Z.leb_spec 0 x).
  - apply nearest_iff; [|lia]. assert (0 < 10 ^ x) by (apply Z.pow_pos_nonneg; lia). nia.
  - apply nearest_iff; [lia|]. apply Z.pow_pos_nonneg; lia.
Qed.
