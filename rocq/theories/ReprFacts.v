(** * ReprFacts: [float.__repr__] writes the shortest digits that read back, at most 17. *)
From Coq Require Import String Ascii List ZArith Bool Lia.
From Verif Require Import PyBase Rawsocket BitFacts Encoding EncodingFacts Utf8 CodecBase MsgPack Json JsonFacts Float FloatFacts
  SpecFormat FormatFacts SpecJson NearestFacts SpecRepr JsonFormat Serializer Codecs.
Import ListNotations.
Local Open Scope Z_scope.

(** ** Numbers as integers: [a] stands for [a / (U * 10^K)] *)
Definition U : Z := 2 ^ 1074.
Lemma U_pos : 0 < U. Proof. reflexivity. Qed.
Lemma V_U n : V n = 2 * n * U. Proof. reflexivity. Qed.
Global Opaque U.
Lemma ten_pos x : 0 <= x -> 0 < 10 ^ x. Proof. intros H. apply Z.pow_pos_nonneg; lia. Qed.
Lemma ten_add x y : 0 <= x -> 0 <= y -> 10 ^ (x + y) = 10 ^ x * 10 ^ y. Proof. intros. apply Z.pow_add_r; lia. Qed.

Definition near (K a g : Z) : Prop :=
  (0 < g -> (mags (g - 1) + mags g) * 10 ^ K <= 2 * a /\ (2 * a = (mags (g - 1) + mags g) * 10 ^ K -> Z.Even g)) /\
  (2 * a <= (mags g + mags (g + 1)) * 10 ^ K /\ (2 * a = (mags g + mags (g + 1)) * 10 ^ K -> Z.Even g)).
Lemma scale_le u P Q d t s : 0 < u -> 0 < t -> d * u = t -> Q * u = s -> (P * d <= Q <-> P * t <= s) /\ (Q <= P * d <-> s <= P * t) /\ (Q = P * d <-> s = P * t).
Proof.
  intros A B <- <-. rewrite Z.mul_assoc. rewrite (Z.mul_le_mono_pos_r (P * d) Q u A), (Z.mul_le_mono_pos_r Q (P * d) u A).
  rewrite <- (Z.mul_cancel_r Q (P * d) u) by lia. tauto.
Qed.
Lemma near_iff m x K g : 0 <= m -> 0 <= K -> 0 <= x + K -> 0 <= g < INF -> (g = of_decimal m x <-> near K (m * 10 ^ (x + K) * U) g).
Proof.
  intros M K0 XK G. rewrite <- nearest_decimal_iff by exact M. unfold nearest_decimal, near.
  assert (TK := ten_pos K K0). assert (TX := ten_pos (x + K) XK). destruct (Z.leb_spec 0 x) as [X|X]; rewrite nearest_mags, V_U.
  - assert (S := fun P => scale_le (10 ^ K) P (2 * (m * 10 ^ x) * U) 1 (10 ^ K) (2 * (m * 10 ^ (x + K) * U)) TK TK ltac:(lia) ltac:(rewrite ten_add by lia; ring)).
    split.
    + intros (_ & L & R). specialize (R ltac:(lia)). split; [intros g0; specialize (L g0)|].
      * destruct L as [L1 L2]. split; [apply (proj1 (S _)); exact L1|]. intros E. apply L2. apply (proj2 (proj2 (S _))). exact E.
      * destruct R as [R1 R2]. split; [apply (proj1 (proj2 (S _))); exact R1|]. intros E. apply R2. apply (proj2 (proj2 (S _))). exact E.
    + intros (L & R). split; [lia|]. split; intros g0.
      * destruct (L g0) as [L1 L2]. split; [apply (proj1 (S _)); exact L1|]. intros E. apply L2. apply (proj2 (proj2 (S _))). exact E.
      * destruct R as [R1 R2]. split; [apply (proj1 (proj2 (S _))); exact R1|]. intros E. apply R2. apply (proj2 (proj2 (S _))). exact E.
  - assert (S := fun P => scale_le (10 ^ (x + K)) P (2 * m * U) (10 ^ (- x)) (10 ^ K) (2 * (m * 10 ^ (x + K) * U)) TX TK
      ltac:(rewrite <- ten_add by lia; f_equal; lia) ltac:(ring)).
    split.
    + intros (_ & L & R). specialize (R ltac:(lia)). split; [intros g0; specialize (L g0)|].
      * destruct L as [L1 L2]. split; [apply (proj1 (S _)); exact L1|]. intros E. apply L2. apply (proj2 (proj2 (S _))). exact E.
      * destruct R as [R1 R2]. split; [apply (proj1 (proj2 (S _))); exact R1|]. intros E. apply R2. apply (proj2 (proj2 (S _))). exact E.
    + intros (L & R). split; [lia|]. split; intros g0.
      * destruct (L g0) as [L1 L2]. split; [apply (proj1 (S _)); exact L1|]. intros E. apply L2. apply (proj2 (proj2 (S _))). exact E.
      * destruct R as [R1 R2]. split; [apply (proj1 (proj2 (S _))); exact R1|]. intros E. apply R2. apply (proj2 (proj2 (S _))). exact E.
Qed.
Lemma near_between K a b c g : near K a g -> near K c g -> a <= b <= c -> near K b g.
Proof.
  intros [A _] [_ C] B. split.
  - intros g0. destruct (A g0) as [A1 A2]. split; [lia|]. intros E. apply A2. lia.
  - destruct C as [C1 C2]. split; [lia|]. intros E. apply C2. lia.
Qed.

(** ** The number of digits *)
Lemma dec_digits_nonzero m : 0 < m -> exists c r, dec_digits m = c :: r /\ 49 <= c <= 57 /\ digits r.
Proof.
  intros M. unfold dec_digits. destruct (codes_nonneg m ltac:(lia)) as [[N|(c & r & N & C & D)] V0].
  - rewrite N in V0. cbn in V0. lia.
  - exists c, r. auto.
Qed.
Lemma dval_bound t : digits t -> forall acc, 0 <= acc -> acc * 10 ^ zlen t <= dval acc t < (acc + 1) * 10 ^ zlen t.
Proof.
  induction 1 as [|c r C D IH]; intros acc A; [unfold dval, zlen; cbn; lia|]. rewrite dval_cons.
  replace (zlen (c :: r)) with (1 + zlen r) by (unfold zlen; cbn [length]; lia). rewrite ten_add by (unfold zlen; lia). change (10 ^ 1) with 10.
  unfold is_digit in C. apply andb_true_iff in C. specialize (IH (10 * acc + (c - 48)) ltac:(lia)). assert (0 < 10 ^ zlen r) by (apply ten_pos; unfold zlen; lia). nia.
Qed.
Lemma dec_digits_len m : 0 < m -> 10 ^ (zlen (dec_digits m) - 1) <= m < 10 ^ zlen (dec_digits m).
Proof.
  intros M. destruct (dec_digits_nonzero m M) as (c & r & E & C & D). destruct (dec_digits_ok m ltac:(lia)) as (_ & _ & V0). rewrite E in *.
  change (digits_value (c :: r)) with (dval 0 (c :: r)) in V0. rewrite dval_cons in V0. pose proof (dval_bound r D (10 * 0 + (c - 48)) ltac:(lia)) as B. rewrite V0 in B.
  replace (zlen (c :: r)) with (1 + zlen r) by (unfold zlen; cbn [length]; lia). replace (1 + zlen r - 1) with (zlen r) by lia.
  rewrite ten_add by (unfold zlen; lia). change (10 ^ 1) with 10. assert (0 < 10 ^ zlen r) by (apply ten_pos; unfold zlen; lia). nia.
Qed.
Lemma dec_digits_le m p : 0 < m -> 0 <= p -> m < 10 ^ p -> zlen (dec_digits m) <= p.
Proof.
  intros M P L. pose proof (dec_digits_len m M) as [A _]. destruct (Z_le_gt_dec (zlen (dec_digits m)) p) as [|C]; [assumption|exfalso].
  pose proof (Z.pow_le_mono_r 10 p (zlen (dec_digits m) - 1) ltac:(lia) ltac:(lia)). lia.
Qed.
Lemma decpt_spec n d k K : 0 < n -> 0 < d -> k = decpt n d -> 0 <= K -> 0 <= k - 1 + K -> 10 ^ (k - 1 + K) * d <= n * 10 ^ K < 10 ^ (k + K) * d.
Proof.
  intros N D -> K0. unfold decpt. destruct (Z.leb_spec d n) as [L|L].
  - intros KK. assert (Q : 0 < n / d) by (apply Z.div_str_pos; lia). pose proof (dec_digits_len _ Q) as B. set (z := zlen (dec_digits (n / d))) in *.
    assert (Z1 : 1 <= z). { unfold z. destruct (dec_digits_nonzero _ Q) as (c & r & -> & _). unfold zlen. cbn [length]. lia. }
    rewrite !ten_add by lia. assert (0 < 10 ^ K) by (apply ten_pos; lia).
    pose proof (Z.div_mod n d ltac:(lia)). pose proof (Z.mod_pos_bound n d D).
    assert (10 ^ (z - 1) * d <= n < 10 ^ z * d) by nia. nia.
  - assert (Q : 0 < (d - 1) / n) by (apply Z.div_str_pos; lia). pose proof (dec_digits_len _ Q) as B. set (z := zlen (dec_digits ((d - 1) / n))) in *.
    assert (Z1 : 1 <= z). { unfold z. destruct (dec_digits_nonzero _ Q) as (c & r & -> & _). unfold zlen. cbn [length]. lia. }
    intros KK. replace (1 - z - 1 + K) with (K - z) in * by lia. replace (1 - z + K) with (1 + (K - z)) by lia.
    replace (10 ^ K) with (10 * 10 ^ (z - 1) * 10 ^ (K - z)). 2:{ change 10 with (10 ^ 1) at 1. rewrite <- !ten_add by lia. f_equal. lia. }
    rewrite (ten_add 1) by lia. change (10 ^ 1) with 10. replace (10 ^ z) with (10 * 10 ^ (z - 1)) in B. 2:{ change 10 with (10 ^ 1) at 1. rewrite <- ten_add by lia. f_equal. lia. }
    pose proof (Z.div_mod (d - 1) n ltac:(lia)). pose proof (Z.mod_pos_bound (d - 1) n N). assert (0 < 10 ^ (K - z)) by (apply ten_pos; lia). assert (0 < 10 ^ (z - 1)) by (apply ten_pos; lia).
    assert (n * 10 ^ (z - 1) < d <= n * (10 * 10 ^ (z - 1))) by nia. nia.
Qed.

(** ** The digits of one float *)
Lemma cand_scaled a b T W q : 0 < b -> 0 < T -> a * T = b * W -> q = a / b -> q * T <= W < (q + 1) * T /\ (2 * (a mod b) < b <-> 2 * (W - q * T) < T).
Proof.
  intros B T0 E ->. pose proof (Z.div_mod a b ltac:(lia)) as DM. pose proof (Z.mod_pos_bound a b B) as MB. set (q := a / b) in *. set (r := a mod b) in *.
  assert (R : r * T = b * (W - q * T)) by nia. split; [nia|]. split; intros H; nia.
Qed.
Section Digits.
  Context (f : Z) (Fin : f_expo f <> 2047) (Nz : f_M f <> 0).
  Let g := f_abs f.
  Let n := fst (f_fraction f).
  Let d := snd (f_fraction f).
  Let k := decpt n d.
  Lemma frac : 0 < n /\ 0 < d /\ n * U = mags g * d /\ 0 < g < INF.
  Proof.
    destruct (f_abs_ME f Fin) as (M1 & E1 & C & A & I0). fold g in A, I0.
    assert (G : mags g = f_M f * 2 ^ (f_E f + 1074)) by (rewrite A; apply mags_scaled; lia).
    assert (GG : 0 < g < INF) by nia. rewrite G. change U with (2 ^ 1074). subst n d. unfold f_fraction. destruct (Z.leb_spec 0 (f_E f)); cbn [fst snd].
    - assert (0 < 2 ^ f_E f) by (apply Z.pow_pos_nonneg; lia). split; [nia|]. split; [lia|]. split; [|exact GG]. rewrite Z.pow_add_r by lia. ring.
    - split; [lia|]. split; [apply Z.pow_pos_nonneg; lia|]. split; [|exact GG]. rewrite <- Z.mul_assoc, <- Z.pow_add_r by lia. do 2 f_equal. lia.
  Qed.
  Definition value_at (K : Z) : Z := mags g * 10 ^ K.
  Definition reads (m x : Z) : Prop := of_decimal m x = g.
  Lemma reads_near m x K : 0 <= m -> 0 <= K -> 0 <= x + K -> (reads m x <-> near K (m * 10 ^ (x + K) * U) g).
  Proof. intros M K0 X. pose proof frac as (_ & _ & _ & G). unfold reads. rewrite <- near_iff by lia. split; congruence. Qed.
  Lemma value_near K : 0 <= K -> near K (value_at K) g.
  Proof.
    intros K0. pose proof frac as (_ & _ & _ & G). pose proof (mags_lt (g - 1) g ltac:(lia)). pose proof (mags_lt g (g + 1) ltac:(lia)). pose proof (ten_pos K K0).
    unfold near, value_at. split; [intros _|]; (split; [nia|intros E; exfalso; nia]).
  Qed.
  Lemma value_range K : 0 <= K -> 0 <= k - 1 + K -> 10 ^ (k - 1 + K) * U <= value_at K < 10 ^ (k + K) * U.
  Proof.
    intros K0 KK. destruct frac as (N & D & E & _). pose proof (decpt_spec n d k K N D eq_refl K0 KK) as [A B]. unfold value_at. pose proof U_pos.
    assert (X : mags g * 10 ^ K * d = n * 10 ^ K * U) by (rewrite <- Z.mul_assoc, (Z.mul_comm (10 ^ K) d), Z.mul_assoc, <- E; ring).
    split.
    - apply (Z.mul_le_mono_pos_r _ _ d D). rewrite X. nia.
    - apply (Z.mul_lt_mono_pos_r d _ _ D). rewrite X. nia.
  Qed.

  (** The neighbours with [p] digits. *)
  Lemma neighbours p K : 1 <= p -> 0 <= K -> 0 <= k - p + K -> exists q, 10 ^ (p - 1) <= q < 10 ^ p /\
    let T := 10 ^ (k - p + K) * U in
    q * T <= value_at K < (q + 1) * T /\
    (candidates n d (k - p) = [q; q + 1] /\ 2 * (value_at K - q * T) < T \/ candidates n d (k - p) = [q + 1; q] /\ T <= 2 * (value_at K - q * T)).
  Proof.
    intros P K0 KK. destruct frac as (N & D & E & _). unfold candidates. set (x := k - p) in *.
    destruct (if 0 <=? x then (n, d * 10 ^ x) else (n * 10 ^ (- x), d)) as [a b] eqn:AB.
    assert (B : 0 < b /\ a * (10 ^ (x + K) * U) = b * value_at K).
    { unfold value_at. destruct (Z.leb_spec 0 x); injection AB as <- <-.
      - pose proof (ten_pos x ltac:(lia)). split; [nia|]. rewrite ten_add by lia. replace (n * (10 ^ x * 10 ^ K * U)) with (n * U * (10 ^ x * 10 ^ K)) by ring. rewrite E. ring.
      - split; [exact D|]. replace (n * 10 ^ (- x) * (10 ^ (x + K) * U)) with (n * U * (10 ^ (- x) * 10 ^ (x + K))) by ring. rewrite E, <- ten_add by lia. replace (- x + (x + K)) with K by lia. ring. }
    destruct B as [B Eq]. assert (T0 : 0 < 10 ^ (x + K) * U) by (apply Z.mul_pos_pos; [apply ten_pos; lia|exact U_pos]).
    destruct (cand_scaled a b _ _ (a / b) B T0 Eq eq_refl) as [R H]. exists (a / b). set (q := a / b) in *.
    split.
    - pose proof (value_range K K0 ltac:(lia)) as [L U1]. replace (k - 1 + K) with (p - 1 + (x + K)) in L by lia. replace (k + K) with (p + (x + K)) in U1 by lia.
      rewrite ten_add in L, U1 by lia. rewrite <- Z.mul_assoc in L, U1. set (T := 10 ^ (x + K) * U) in *. cut (10 ^ (p - 1) < q + 1 /\ q < 10 ^ p); [lia|].
      split; apply (Z.mul_lt_mono_pos_r T _ _ T0); lia.
    - cbv zeta. split; [exact R|]. destruct (Z.ltb_spec (2 * (a mod b)) b) as [C|C].
      + left. split; [reflexivity|]. apply H. exact C.
      + right. split; [reflexivity|]. destruct (Z_lt_le_dec (2 * (value_at K - q * (10 ^ (x + K) * U))) (10 ^ (x + K) * U)) as [C'|C']; [|exact C']. apply H in C'. lia.
  Qed.
  (** A number of at most [p] digits is not strictly between them. *)
  Lemma outside p K m x q : 1 <= p -> 0 <= K -> 0 <= k - p + K -> 0 <= x + K -> 0 <= m < 10 ^ p -> 10 ^ (p - 1) <= q < 10 ^ p ->
    let T := 10 ^ (k - p + K) * U in m * 10 ^ (x + K) * U <= q * T \/ (q + 1) * T <= m * 10 ^ (x + K) * U.
  Proof.
    intros P K0 KK XK M Q. cbv zeta. pose proof U_pos as U0. set (t := k - p + K) in *. pose proof (ten_pos t KK) as T0. pose proof (ten_pos (x + K) XK) as X0.
    destruct (Z_lt_le_dec x (k - p)) as [C|C].
    - left. assert (m * 10 ^ (x + K) <= q * 10 ^ t); [|nia]. replace t with (1 + (t - 1)) by lia. rewrite (ten_add 1 (t - 1)) by lia. pose proof (Z.pow_le_mono_r 10 (x + K) (t - 1) ltac:(lia) ltac:(lia)).
      replace p with (1 + (p - 1)) in M by lia. rewrite ten_add in M by lia. change (10 ^ 1) with 10 in *. pose proof (ten_pos (t - 1) ltac:(lia)).
      apply Z.le_trans with (m * 10 ^ (t - 1)); nia.
    - replace (x + K) with ((x - (k - p)) + t) by lia. rewrite (ten_add (x - (k - p)) t) by lia. set (s := m * 10 ^ (x - (k - p))).
      replace (m * (10 ^ (x - (k - p)) * 10 ^ t) * U) with (s * (10 ^ t * U)) by (unfold s; ring). assert (0 < 10 ^ t * U) by nia.
      destruct (Z_le_gt_dec s q); [left|right]; nia.
  Qed.

  Definition found (p : Z) : option Z := find (fun m => of_decimal m (k - p) =? f_abs f) (candidates n d (k - p)).
  Definition room (x y : Z) : Z := Z.abs x + Z.abs y + Z.abs k + 20.
  Lemma find_none p m x : 1 <= p <= 17 -> found p = None -> 0 <= m < 10 ^ p -> ~ reads m x.
  Proof.
    intros P F M R. set (K := room x p). assert (K0 : 0 <= K /\ 0 <= k - p + K /\ 0 <= x + K) by (unfold K, room; lia). destruct K0 as (K0 & KK & XK).
    destruct (neighbours p K ltac:(lia) K0 KK) as (q & Q & B & Cs). pose proof (outside p K m x q ltac:(lia) K0 KK XK M Q) as O. cbv zeta in *.
    apply (reads_near m x K) in R; [|lia|lia|lia]. pose proof (value_near K K0) as VN.
    assert (X : reads q (k - p) \/ reads (q + 1) (k - p)).
    { destruct O as [O|O]; [left|right]; (apply (reads_near _ _ K); [lia|lia|lia|]); rewrite <- Z.mul_assoc.
      - apply (near_between K _ _ _ g R VN). lia.
      - apply (near_between K _ _ _ g VN R). lia. }
    unfold found in F. assert (Y : forall c, In c [q; q + 1] -> ~ reads c (k - p)).
    { intros c I0 Rc. assert (I1 : In c (candidates n d (k - p))) by (destruct Cs as [[-> _]|[-> _]]; cbn in *; tauto).
      pose proof (find_none _ _ F c I1) as Z0. cbn in Z0. apply Z.eqb_neq in Z0. exact (Z0 Rc). }
    destruct X as [X|X]; [exact (Y q (or_introl eq_refl) X)|exact (Y (q + 1) (or_intror (or_introl eq_refl)) X)].
  Qed.
  Lemma find_some p m : 1 <= p -> found p = Some m -> reads m (k - p) /\ 10 ^ (p - 1) <= m <= 10 ^ p /\
    forall m' x' K, 0 <= m' < 10 ^ p -> reads m' x' -> 0 <= K -> 0 <= x' + K -> 0 <= k - p + K ->
      Z.abs (m * 10 ^ (k - p + K) * U - value_at K) <= Z.abs (m' * 10 ^ (x' + K) * U - value_at K).
  Proof.
    intros P F. unfold found in F. destruct (find_some _ _ F) as [I0 R]. apply Z.eqb_eq in R. change (reads m (k - p)) in R. split; [exact R|].
    split.
    - set (K := room 0 p). destruct (neighbours p K ltac:(lia) ltac:(unfold K, room; lia) ltac:(unfold K, room; lia)) as (q & Q & B & Cs). cbv zeta in Cs.
      assert (m = q \/ m = q + 1) by (destruct Cs as [[E _]|[E _]]; rewrite E in I0; cbn in I0; intuition congruence). lia.
    - intros m' x' K M' R' K0 XK KK. destruct (neighbours p K P K0 KK) as (q & Q & B & Cs). pose proof (outside p K m' x' q P K0 KK XK M' Q) as O. cbv zeta in *.
      rewrite <- (Z.mul_assoc m). set (T := 10 ^ (k - p + K) * U) in *. pose proof (value_near K K0) as VN.
      assert (R0 := proj1 (reads_near m' x' K ltac:(lia) K0 XK) R').
      assert (Q0 := ten_pos (p - 1) ltac:(lia)).
      assert (Low : m' * 10 ^ (x' + K) * U <= q * T -> reads q (k - p)).
      { intros L. apply (reads_near q (k - p) K); [lia|lia|lia|]. rewrite <- Z.mul_assoc. apply (near_between K _ _ _ g R0 VN). fold T. lia. }
      assert (Up : (q + 1) * T <= m' * 10 ^ (x' + K) * U -> reads (q + 1) (k - p)).
      { intros L. apply (reads_near (q + 1) (k - p) K); [lia|lia|lia|]. rewrite <- Z.mul_assoc. apply (near_between K _ _ _ g VN R0). fold T. lia. }
      destruct Cs as [[E H]|[E H]]; rewrite E in F; cbn [find] in F.
      + destruct (Z.eqb_spec (of_decimal q (k - p)) (f_abs f)) as [e|e].
        * injection F as <-. destruct O as [O|O]; lia.
        * destruct (of_decimal (q + 1) (k - p) =? f_abs f); [|discriminate F]. injection F as <-. destruct O as [O|O]; [destruct (e (Low O))|lia].
      + destruct (Z.eqb_spec (of_decimal (q + 1) (k - p)) (f_abs f)) as [e|e].
        * injection F as <-. destruct O as [O|O]; lia.
        * destruct (of_decimal q (k - p) =? f_abs f); [|discriminate F]. injection F as <-. destruct O as [O|O]; [lia|destruct (e (Up O))].
  Qed.
  (** Gaps between floats are wide enough for 17 digits. *)
  Lemma gaps : mags g <= 2 ^ 53 * (mags g - mags (g - 1)) /\ mags g <= 2 ^ 53 * (mags (g + 1) - mags g).
  Proof.
    destruct (f_abs_ME f Fin) as (M1 & E1 & C & A & I0). fold g in A, I0. set (M := f_M f) in *. set (e := f_E f + 1074) in *. assert (E0 : 0 <= e) by lia.
    assert (P : 0 < 2 ^ e) by (apply Z.pow_pos_nonneg; lia).
    assert (G : mags g = M * 2 ^ e) by (rewrite A; apply mags_scaled; lia).
    assert (G1 : mags (g + 1) = (M + 1) * 2 ^ e) by (rewrite A; replace (e * 2 ^ 52 + M + 1) with (e * 2 ^ 52 + (M + 1)) by lia; apply mags_scaled; lia).
    split; [|rewrite G, G1; nia]. destruct (Z.eq_dec e 0) as [Z0|Z0]; [|destruct (Z.eq_dec M (2 ^ 52)) as [Y|Y]].
    - assert (G0 : mags (g - 1) = (M - 1) * 2 ^ e) by (rewrite A; replace (e * 2 ^ 52 + M - 1) with (e * 2 ^ 52 + (M - 1)) by lia; apply mags_scaled; lia). rewrite G, G0. nia.
    - assert (G0 : mags (g - 1) = (2 ^ 53 - 1) * 2 ^ (e - 1)). { rewrite A, Y. replace (e * 2 ^ 52 + 2 ^ 52 - 1) with ((e - 1) * 2 ^ 52 + (2 ^ 53 - 1)) by lia. apply mags_scaled; lia. }
      rewrite G, G0, Y. replace (2 ^ e) with (2 * 2 ^ (e - 1)). 2:{ change 2 with (2 ^ 1) at 1. rewrite <- Z.pow_add_r by lia. f_equal. lia. }
      set (z := 2 ^ (e - 1)). replace (2 ^ 52 * (2 * z)) with (2 ^ 53 * z) by ring. replace (2 ^ 53 * z - (2 ^ 53 - 1) * z) with z by ring. lia.
    - assert (G0 : mags (g - 1) = (M - 1) * 2 ^ e) by (rewrite A; replace (e * 2 ^ 52 + M - 1) with (e * 2 ^ 52 + (M - 1)) by lia; apply mags_scaled; lia). rewrite G, G0. nia.
  Qed.
  Lemma found_17 : found 17 <> None.
  Proof.
    set (K := room 0 17). assert (K0 : 0 <= K /\ 0 <= k - 17 + K) by (unfold K, room; lia). destruct K0 as [K0 KK].
    destruct (neighbours 17 K ltac:(lia) K0 KK) as (q & Q & B & Cs). cbv zeta in *. set (T := 10 ^ (k - 17 + K) * U) in *.
    assert (TV : 10 ^ 16 * T <= value_at K).
    { pose proof (value_range K K0 ltac:(lia)) as [L _]. replace (k - 1 + K) with (16 + (k - 17 + K)) in L by lia. rewrite ten_add in L by lia. unfold T. lia. }
    pose proof gaps as [G1 G2]. pose proof (ten_pos K K0) as TK.
    assert (W : forall c, 2 * Z.abs (c * T - value_at K) <= T -> near K (c * T) g).
    { intros c H. unfold value_at in *. set (w := mags g) in *. set (t := 10 ^ K) in *. set (lo := mags (g - 1)) in *. set (hi := mags (g + 1)) in *.
      assert (H1 : T * 10 ^ 16 <= 2 ^ 53 * ((w - lo) * t)) by nia. assert (H2 : T * 10 ^ 16 <= 2 ^ 53 * ((hi - w) * t)) by nia.
      assert (T1 : 0 < T) by (unfold T; apply Z.mul_pos_pos; [apply ten_pos; lia|exact U_pos]).
      assert (H3 : T < (w - lo) * t) by lia. assert (H4 : T < (hi - w) * t) by lia.
      unfold near. fold w lo hi t. split; [intros _|]; (split; [lia|intros E; exfalso; lia]). }
    assert (X : exists c, In c (candidates n d (k - 17)) /\ reads c (k - 17)).
    { assert (Q0 := ten_pos (17 - 1) ltac:(lia)). destruct Cs as [[E H]|[E H]]; rewrite E.
      - exists q. split; [left; reflexivity|]. apply (reads_near q (k - 17) K); [lia|lia|lia|]. rewrite <- Z.mul_assoc. fold T. apply W. lia.
      - exists (q + 1). split; [left; reflexivity|]. apply (reads_near (q + 1) (k - 17) K); [lia|lia|lia|]. rewrite <- Z.mul_assoc. fold T. apply W. lia. }
    destruct X as (c & I0 & R). intros F. pose proof (List.find_none _ _ F c I0) as Z0. cbn in Z0. apply Z.eqb_neq in Z0. exact (Z0 R).
  Qed.
  Lemma shortest_spec fuel : forall p, 1 <= p -> p + Z.of_nat fuel = 18 -> (forall m' x', 0 <= m' < 10 ^ (p - 1) -> ~ reads m' x') ->
    (fuel = O -> False) ->
    exists p' m, 1 <= p' <= 17 /\ shortest fuel p f n d k = (m, k - p') /\ found p' = Some m /\ forall m' x', 0 <= m' < 10 ^ (p' - 1) -> ~ reads m' x'.
  Proof.
    induction fuel as [|fuel IH]; intros p P S0 H N; [destruct (N eq_refl)|]. cbn [shortest]. fold (found p). destruct (found p) as [m|] eqn:F.
    - exists p, m. split; [lia|]. auto.
    - destruct fuel as [|fuel].
      { assert (p = 17) by lia. subst p. destruct (found_17 F). }
      apply IH; [lia|lia| |discriminate]. intros m' x' M'. replace (p + 1 - 1) with p in M' by lia. apply (find_none p); [lia|exact F|exact M'].
  Qed.
  Lemma shortest_17 : exists p m, 1 <= p <= 17 /\ shortest 17 1 f n d k = (m, k - p) /\ found p = Some m /\ forall m' x', 0 <= m' < 10 ^ (p - 1) -> ~ reads m' x'.
  Proof.
    apply shortest_spec; [lia|lia| |discriminate]. intros m' x' M' R. change (10 ^ (1 - 1)) with 1 in M'. assert (m' = 0) by lia. subst m'.
    destruct frac as (_ & _ & _ & G). unfold reads, of_decimal, dec_fraction in R. rewrite Z.mul_0_l in R. destruct (0 <=? x'); unfold round_q in R; cbn [Z.eqb] in R; lia.
  Qed.
End Digits.

(** ** The text *)
Lemma format_value ds k : (exists c r, ds = c :: r /\ 49 <= c <= 57 /\ digits r) ->
  exists i fd e j, format_digits ds k = i ++ point fd ++ e /\ natural_text i /\ digits fd /\ exp_text e /\ 0 <= j /\
    digits_value (i ++ fd) = digits_value ds * 10 ^ j /\ k - zlen ds = exp_value e - zlen fd + j.
Proof.
  intros (c & r & E & C & D). assert (DS : digits ds) by (subst ds; constructor; [unfold is_digit; apply andb_true_iff; lia|exact D]).
  assert (L : zlen ds = 1 + zlen r) by (subst ds; unfold zlen; cbn [length]; lia). assert (L0 : 0 <= zlen r) by (unfold zlen; lia).
  unfold format_digits. destruct ((-4 <? k) && (k <=? 16)) eqn:K.
  - apply andb_true_iff in K. destruct (Z.leb_spec k 0).
    + exists [48], (zeros (- k) ++ ds), [], 0. split; [|split; [left; reflexivity|split; [apply digits_app; split; [apply digits_zeros|exact DS]|split; [left; reflexivity|split; [lia|split]]]]].
      * rewrite app_nil_r. cbn [app]. f_equal. unfold point. destruct (zeros (- k) ++ ds) eqn:Z0; [|reflexivity]. apply app_eq_nil in Z0. subst ds. destruct Z0; discriminate.
      * change (digits_value ([48] ++ zeros (- k) ++ ds)) with (dval 0 (zeros (- k) ++ ds)). rewrite dval_app. unfold zeros. rewrite dval_zeros.
        change (digits_value ds) with (dval 0 ds). rewrite Z.mul_0_l. change (10 ^ 0) with 1. lia.
      * cbn [exp_value]. rewrite zlen_app. unfold zeros. unfold zlen at 2. rewrite repeat_length. lia.
    + destruct (Z.ltb_spec k (zlen ds)) as [Lt|Ge].
      * assert (F : (0 < Z.to_nat k < length ds)%nat) by (unfold zlen in Lt; lia).
        exists (firstn (Z.to_nat k) ds), (skipn (Z.to_nat k) ds), [], 0.
        assert (S : skipn (Z.to_nat k) ds <> []). { intros Q. apply (f_equal (@length Z)) in Q. rewrite skipn_length in Q. cbn in Q. lia. }
        assert (DD : digits (firstn (Z.to_nat k) ds) /\ digits (skipn (Z.to_nat k) ds)) by (apply digits_app; rewrite firstn_skipn; exact DS).
        rewrite app_nil_r. unfold point. destruct (skipn (Z.to_nat k) ds) as [|y z] eqn:Y; [congruence|]. rewrite <- Y in *.
        split; [reflexivity|]. split; [|split; [tauto|split; [left; reflexivity|split; [lia|]]]].
        -- right. subst ds. destruct (Z.to_nat k) as [|q]; [lia|]. cbn [firstn] in *. exists c, (firstn q r). split; [reflexivity|]. split; [exact C|]. destruct DD as [DD _]. inversion DD; assumption.
        -- rewrite firstn_skipn. change (10 ^ 0) with 1. split; [lia|]. cbn [exp_value]. unfold zlen. rewrite skipn_length. unfold zlen in Lt. lia.
      * exists (ds ++ zeros (k - zlen ds)), [48], [], (k - zlen ds + 1). split; [rewrite <- app_assoc; reflexivity|]. split; [|split; [constructor; auto|split; [left; reflexivity|split; [lia|split]]]].
        -- right. subst ds. exists c, (r ++ zeros (k - zlen (c :: r))). split; [reflexivity|]. split; [exact C|]. apply digits_app. split; [exact D|apply digits_zeros].
        -- change (digits_value ((ds ++ zeros (k - zlen ds)) ++ [48])) with (dval 0 ((ds ++ zeros (k - zlen ds)) ++ [48])).
           rewrite !dval_app. unfold zeros. rewrite dval_zeros. rewrite dval_cons. change (dval 0 ds) with (digits_value ds). unfold dval. cbn [fold_left].
           rewrite Z.pow_add_r by lia. rewrite Z2Nat.id by lia. ring.
        -- change (zlen [48]) with 1. cbn [exp_value]. lia.
  - assert (0 <= Z.abs (k - 1)) as A0 by lia. destruct (exp_digits_ok (Z.abs (k - 1)) A0) as (X1 & X2 & X3).
    exists [c], r, ([101; (if 0 <=? k - 1 then 43 else 45)] ++ exp_digits (Z.abs (k - 1))), 0.
    split; [subst ds; destruct r; reflexivity|]. split; [right; exists c, []; split; [reflexivity|split; [exact C|constructor]]|]. split; [exact D|]. split; [|split; [lia|split]].
    + right. exists 101, [if 0 <=? k - 1 then 43 else 45], (exp_digits (Z.abs (k - 1))). split; [reflexivity|]. split; [auto|]. split; [destruct (0 <=? k - 1); auto|]. split; [exact X2|exact X1].
    + subst ds. change (10 ^ 0) with 1. cbn [app]. rewrite Z.mul_1_r. reflexivity.
    + cbn [app exp_value]. destruct (Z.leb_spec 0 (k - 1)); cbn [Z.eqb Pos.eqb]; cbv iota; rewrite X3; lia.
Qed.
Lemma exp_digits_len e : 0 <= e < 1000 -> zlen (exp_digits e) <= 3.
Proof.
  intros H. unfold exp_digits. destruct (Z.eq_dec e 0) as [->|N]; [cbn; lia|]. destruct (Z.ltb_spec e 10) as [L|L].
  - pose proof (dec_digits_le e 1 ltac:(lia) ltac:(lia) ltac:(lia)). unfold zlen in *. cbn [length]. lia.
  - apply dec_digits_le; lia.
Qed.
Lemma zlen_cons {A} (x : A) l : zlen (x :: l) = 1 + zlen l. Proof. unfold zlen. cbn [length]. lia. Qed.
Lemma format_len ds k : 1 <= zlen ds <= 17 -> -900 <= k <= 900 -> zlen (format_digits ds k) <= 23.
Proof.
  intros D K. unfold format_digits. destruct ((-4 <? k) && (k <=? 16)) eqn:B.
  - apply andb_true_iff in B. assert (Z0 : forall z, 0 <= z -> zlen (zeros z) = z) by (intros z Z1; unfold zlen, zeros; rewrite repeat_length; lia).
    destruct (Z.leb_spec k 0).
    + rewrite !zlen_app, Z0 by lia. change (zlen [48; 46]) with 2. lia.
    + destruct (Z.ltb_spec k (zlen ds)).
      * rewrite app_assoc, zlen_app, zlen_app. change (zlen [46]) with 1. unfold zlen in *. rewrite firstn_length, skipn_length. lia.
      * rewrite !zlen_app, Z0 by lia. change (zlen [46; 48]) with 2. lia.
  - rewrite !zlen_app. pose proof (exp_digits_len (Z.abs (k - 1)) ltac:(lia)). change (zlen [101; if 0 <=? k - 1 then 43 else 45]) with 2.
    assert (zlen (match ds with [] => [48] | [c] => [c] | c :: r => c :: 46 :: r end) <= zlen ds + 1).
    { destruct ds as [|c [|c' r]]; rewrite ?zlen_cons; unfold zlen in *; cbn [length]; lia. }
    lia.
Qed.
Lemma strip_dval m : 0 < m -> let ds := strip_zeros (dec_digits m) in exists j c r, 0 <= j /\ m = digits_value ds * 10 ^ j /\ zlen (dec_digits m) = zlen ds + j /\
  ds = c :: r /\ 49 <= c <= 57 /\ digits r.
Proof.
  intros M. cbv zeta. destruct (dec_digits_nonzero m M) as (c & r & N & C & D). destruct (strip_zeros_head c r ltac:(lia)) as [r' Hd]. destruct (strip_zeros_spec (dec_digits m)) as [j J].
  destruct (dec_digits_ok m ltac:(lia)) as (_ & _ & V0). exists (Z.of_nat j), c, r'. split; [lia|]. split; [|split; [|split; [rewrite N; exact Hd|split; [exact C|]]]].
  - rewrite <- V0 at 1. rewrite J at 1. change (digits_value (strip_zeros (dec_digits m) ++ repeat 48 j)) with (dval 0 (strip_zeros (dec_digits m) ++ repeat 48 j)). rewrite dval_app, dval_zeros. reflexivity.
  - rewrite J at 1. rewrite zlen_app. unfold zlen at 2. rewrite repeat_length. reflexivity.
  - rewrite N, Hd in J. injection J as J. rewrite J in D. apply digits_app in D. tauto.
Qed.
Lemma ten_range k n d : 0 < n -> 0 < d -> n * U < d * 2 ^ 2200 -> d <= n * U -> k = decpt n d -> -800 <= k <= 800.
Proof.
  intros N D A B E. change U with (2 ^ 1074) in A, B. split.
  - destruct (Z_le_gt_dec (-800) k) as [|C]; [assumption|exfalso]. pose proof (decpt_spec n d k (1 - k) N D E ltac:(lia) ltac:(lia)) as [_ X].
    replace (k + (1 - k)) with 1 in X by lia. assert (Y : 10 ^ 800 <= 10 ^ (1 - k)) by (apply Z.pow_le_mono_r; lia).
    assert (W : 10 * 2 ^ 1074 < 10 ^ 800) by (vm_compute; reflexivity). change (10 ^ 1) with 10 in X.
    generalize dependent (2 ^ 1074). generalize dependent (10 ^ 800). generalize dependent (10 ^ (1 - k)). intros. nia.
  - destruct (Z_le_gt_dec k 800) as [|C]; [assumption|exfalso]. pose proof (decpt_spec n d k 0 N D E ltac:(lia) ltac:(lia)) as [X _].
    assert (Y : 10 ^ 800 <= 10 ^ (k - 1 + 0)) by (apply Z.pow_le_mono_r; lia). assert (W : 2 ^ 2200 < 10 ^ 800) by (vm_compute; reflexivity). change (10 ^ 0) with 1 in X.
    assert (W2 : 1 <= 2 ^ 1074) by (vm_compute; discriminate).
    generalize dependent (2 ^ 1074). generalize dependent (10 ^ 800). generalize dependent (10 ^ (k - 1 + 0)). generalize dependent (2 ^ 2200). intros. nia.
Qed.

Lemma distance_le K J m x m' x' w : 0 <= K -> 0 <= J -> 0 <= x + K -> 0 <= x' + K ->
  Z.abs (m * 10 ^ (x + (K + J)) * U - w * 10 ^ (K + J)) <= Z.abs (m' * 10 ^ (x' + (K + J)) * U - w * 10 ^ (K + J)) ->
  Z.abs (m * 10 ^ (x + K) * U - w * 10 ^ K) <= Z.abs (m' * 10 ^ (x' + K) * U - w * 10 ^ K).
Proof.
  intros K0 J0 X X' H. rewrite !Z.add_assoc in H. rewrite !(ten_add _ J) in H by lia. pose proof (ten_pos J J0) as T.
  replace (m * (10 ^ (x + K) * 10 ^ J) * U - w * (10 ^ K * 10 ^ J)) with ((m * 10 ^ (x + K) * U - w * 10 ^ K) * 10 ^ J) in H by ring.
  replace (m' * (10 ^ (x' + K) * 10 ^ J) * U - w * (10 ^ K * 10 ^ J)) with ((m' * 10 ^ (x' + K) * U - w * 10 ^ K) * 10 ^ J) in H by ring.
  rewrite !Z.abs_mul, (Z.abs_eq (10 ^ J)) in H by lia. apply Z.mul_le_mono_pos_r in H; [exact H|exact T].
Qed.
Lemma shift_ten m0 j a K : 0 <= j -> 0 <= a + K -> m0 * 10 ^ j * 10 ^ (a + K) = m0 * 10 ^ (a + j + K).
Proof. intros J A. rewrite <- Z.mul_assoc, <- ten_add by lia. do 2 f_equal. lia. Qed.
Lemma repr_spec f : f_expo f <> 2047 -> exists m x, writes (f_sign f) m x (repr_float f) /\ nearest_decimal m x (f_abs f) /\ 0 <= m < 10 ^ 17 /\
  fewest m (f_abs f) /\ closest m x (f_abs f) /\ count (repr_float f) <= 24.
Proof.
  intros Fin. unfold repr_float. assert (Ss : sign (f_sign f) (if f_sign f then [45] else [])) by (apply sign_cases; reflexivity).
  assert (Sl : count (if f_sign f then [45] else []) <= 1) by (destruct (f_sign f); cbn; lia).
  destruct (Z.eqb_spec (f_M f) 0) as [Z0|Nz].
  - destruct (f_abs_ME f Fin) as (_ & _ & C & A & _). assert (E : f_E f = -1074) by (destruct C; [assumption|lia]). rewrite E, Z0 in A. change (f_abs f = 0) in A. rewrite A.
    exists 0, 0. split; [|split; [|split; [|split; [|split]]]].
    + exists (if f_sign f then [45] else []), [48], [48], [46; 48], 0, [], 1. split; [exact Ss|]. split; [constructor|]. split; [apply fraction_some; [discriminate|repeat constructor; unfold digit; lia]|].
      split; [constructor|]. split; [reflexivity|]. split; [lia|]. split; reflexivity.
    + apply nearest_decimal_iff; [lia|]. reflexivity.
    + split; [lia|]. vm_compute. reflexivity.
    + intros n m' x' N _ _. apply ten_pos. exact N.
    + intros n m' x' K _ _ _ K0 _ _. unfold distance. change (magnitude 11 52 0) with 0. rewrite !Z.mul_0_l. apply Z.abs_nonneg.
    + unfold count in *. rewrite app_length. change (length (codes "0.0")) with 3%nat. lia.
  - pose proof (frac f Fin Nz) as (N & D & E & G). pose proof (shortest_17 f Fin Nz) as (p & m & P & S1 & F & Least).
    destruct (find_some f Fin Nz p m ltac:(lia) F) as (R & Mr & Near).
    destruct (f_abs_ME f Fin) as (M1 & E1 & C0 & A & I0).
    assert (Kr : -800 <= decpt (fst (f_fraction f)) (snd (f_fraction f)) <= 800).
    { assert (Gm : mags (f_abs f) = f_M f * 2 ^ (f_E f + 1074)) by (rewrite A; apply mags_scaled; lia).
      assert (Eb : f_E f + 1074 < 2047) by (unfold INF in I0; lia).
      assert (0 < 2 ^ (f_E f + 1074) <= 2 ^ 2047) by (split; [apply Z.pow_pos_nonneg; lia|apply Z.pow_le_mono_r; lia]).
      apply (ten_range _ (fst (f_fraction f)) (snd (f_fraction f)) N D); [| |reflexivity]; rewrite E, Gm.
      - replace (2 ^ 2200) with (2 ^ 153 * 2 ^ 2047) by (rewrite <- Z.pow_add_r by lia; reflexivity). generalize dependent (2 ^ 2047). generalize dependent (2 ^ (f_E f + 1074)). intros a _ b H.
        rewrite (Z.mul_comm (snd _)). apply Z.mul_lt_mono_pos_r; [exact D|]. assert (2 ^ 53 < 2 ^ 153) by reflexivity.
        apply Z.le_lt_trans with (2 ^ 53 * b); [apply Z.mul_le_mono_nonneg; lia|apply Z.mul_lt_mono_pos_r; lia].
      - generalize dependent (2 ^ (f_E f + 1074)). intros. nia. }
    rewrite (surjective_pairing (f_fraction f)). set (n := fst (f_fraction f)) in *. set (d := snd (f_fraction f)) in *. set (k := decpt n d) in *. rewrite S1.
    assert (M0 : 0 < m) by (pose proof (ten_pos (p - 1) ltac:(lia)); lia).
    destruct (strip_dval m M0) as (j & c & r & J0 & Jm & Jl & Ds & C & Dr). set (ds := strip_zeros (dec_digits m)) in *.
    set (m0 := digits_value ds) in *. assert (DD : digits ds) by (rewrite Ds; constructor; [unfold is_digit; apply andb_true_iff; lia|exact Dr]).
    assert (Lds : 1 <= zlen ds) by (rewrite Ds; unfold zlen; cbn [length]; lia).
    assert (Mb : 10 ^ (zlen ds - 1) <= m0 < 10 ^ zlen ds).
    { unfold m0. rewrite Ds. change (digits_value (c :: r)) with (dval 0 (c :: r)). rewrite dval_cons. pose proof (dval_bound r Dr (10 * 0 + (c - 48)) ltac:(lia)) as B.
      rewrite zlen_cons. replace (1 + zlen r - 1) with (zlen r) by lia. rewrite ten_add by (unfold zlen; lia). change (10 ^ 1) with 10. assert (T0 : 0 < 10 ^ zlen r) by (apply ten_pos; unfold zlen; lia). clear - B T0 C. nia. }
    assert (Lp : zlen ds <= p).
    { destruct (Z.eq_dec m (10 ^ p)) as [Em|Nm].
      - assert (B := dec_digits_le m (p + 1) M0 ltac:(lia) ltac:(rewrite Em, ten_add by lia; change (10 ^ 1) with 10; pose proof (ten_pos p ltac:(lia)); lia)).
        destruct (Z.eq_dec j 0) as [Ej|Nj]; [|lia]. exfalso. subst j. change (10 ^ 0) with 1 in Jm.
        assert (Dl : digits_value ds mod 10 = 0). { fold m0. assert (Emm : m0 = m) by lia. rewrite Emm, Em. replace p with (1 + (p - 1)) by lia. rewrite ten_add by lia. change (10 ^ 1) with 10. rewrite Z.mul_comm. apply Z.mod_mul. lia. }
        destruct (exists_last (l := ds)) as (a & z & Ea). { rewrite Ds. discriminate. }
        assert (Lz : forall t a z, strip_zeros t = a ++ [z] -> z <> 48).
        { clear. induction t as [|c t IH]; intros a z H; cbn [strip_zeros] in H; [destruct a; discriminate H|]. destruct (strip_zeros t) as [|y l] eqn:S.
          - destruct (Z.eqb_spec c 48); [destruct a; discriminate H|]. destruct a as [|b [|b' a]]; try discriminate H. injection H as <-. assumption.
          - destruct a as [|b a]; [discriminate H|]. injection H as _ H. exact (IH a z H). }
        pose proof (Lz _ _ _ Ea) as Nz'. rewrite Ea in Dl. change (digits_value (a ++ [z])) with (dval 0 (a ++ [z])) in Dl. rewrite dval_app in Dl. unfold dval in Dl at 1. cbn [fold_left] in Dl.
        rewrite Ea in DD. apply digits_app in DD as [_ Dz]. apply Forall_inv in Dz as Dz'. unfold is_digit in Dz'. apply andb_true_iff in Dz'.
        rewrite Z.mul_comm, Z.add_comm, Z.mod_add in Dl by lia. rewrite Z.mod_small in Dl by lia. lia.
      - pose proof (dec_digits_le m p M0 ltac:(lia) ltac:(lia)). lia. }
    assert (Rm : reads f m0 (k - p + j)).
    { unfold reads in *. rewrite <- R, Jm. rewrite <- (of_decimal_shift m0 (k - p + j) j) by (pose proof (ten_pos (zlen ds - 1) ltac:(lia)); lia). f_equal. lia. }
    assert (P0 := ten_pos (zlen ds - 1) ltac:(lia)).
    exists m0, (k - p + j). split; [|split; [|split; [|split; [|split]]]].
    + destruct (format_value ds (zlen (dec_digits m) + (k - p))) as (i & fd & e & j' & F1 & F2 & F3 & F4 & F5 & F6 & F7); [exists c, r; auto|]. rewrite F1.
      exists (if f_sign f then [45] else []), i, fd, (point fd), (exp_value e), e, j'. split; [exact Ss|]. split; [apply whole_iff; exact F2|]. split; [apply fraction_iff; auto|].
      split; [apply power_iff; auto|]. split; [reflexivity|]. split; [exact F5|]. split; [rewrite decimal_value; exact F6|]. unfold zlen, count in *. lia.
    + apply nearest_decimal_iff; [lia|]. symmetry. exact Rm.
    + split; [lia|]. pose proof (Z.pow_le_mono_r 10 (zlen ds) 17 ltac:(lia) ltac:(lia)). lia.
    + intros q m' x' Q M' H. apply nearest_decimal_iff in H; [|lia]. destruct (Z_lt_le_dec q p) as [Cq|Cq].
      * exfalso. apply (Least m' x'); [|symmetry; exact H]. pose proof (Z.pow_le_mono_r 10 q (p - 1) ltac:(lia) ltac:(lia)). lia.
      * pose proof (Z.pow_le_mono_r 10 (zlen ds) q ltac:(lia) ltac:(lia)). lia.
    + intros q m' x' K Q M' H K0 X X'. apply nearest_decimal_iff in H; [|lia]. unfold distance. change (2 ^ 1074) with U.
      rewrite mags_magnitude by (unfold INF in I0; lia). apply (distance_le K (Z.abs (k - p) + j)); [lia|lia|exact X|exact X'|].
      assert (Qp : q <= p).
      { destruct (Z_le_gt_dec q p) as [|Cq]; [assumption|exfalso]. pose proof (Z.pow_le_mono_r 10 (zlen ds) (q - 1) ltac:(lia) ltac:(lia)). lia. }
      assert (M'' : 0 <= m' < 10 ^ p) by (destruct (Z_lt_le_dec q 0) as [Cq|Cq]; [rewrite (Z.pow_neg_r 10 q Cq) in M'; lia|pose proof (Z.pow_le_mono_r 10 q p ltac:(lia) ltac:(lia)); lia]).
      pose proof (Near m' x' (K + (Z.abs (k - p) + j)) M'' ltac:(symmetry; exact H) ltac:(lia) ltac:(lia) ltac:(lia)) as B. unfold value_at in B.
      replace (m0 * 10 ^ (k - p + j + (K + (Z.abs (k - p) + j)))) with (m * 10 ^ (k - p + (K + (Z.abs (k - p) + j)))); [exact B|].
      rewrite Jm. apply shift_ten; [exact J0|]. clear - J0 K0. lia.
    + unfold count in *. rewrite app_length. pose proof (format_len ds (zlen (dec_digits m) + (k - p)) ltac:(lia)) as Fl.
      pose proof (dec_digits_len m M0). assert (Dl : zlen (dec_digits m) <= 18) by (apply dec_digits_le; [lia|lia|]; pose proof (Z.pow_le_mono_r 10 p 17 ltac:(lia) ltac:(lia)); assert (10 ^ 17 < 10 ^ 18) by reflexivity; lia).
      unfold zlen in *. lia.
Qed.
Lemma json_repr f : 0 <= f < 2 ^ 64 -> SpecFormat.finite 11 52 f -> exists t m x, dumps python_json (VFloat f) = Ok (map octet t) /\
  writes (negative 11 52 f) m x t /\ nearest_decimal m x (f mod 2 ^ 63) /\ 0 <= m < 10 ^ 17 /\ fewest m (f mod 2 ^ 63) /\ closest m x (f mod 2 ^ 63) /\ count t <= 24.
Proof.
  intros R F. change (2 ^ 11 - 1) with 2047 in F. unfold SpecFormat.finite in F. rewrite <- f_expo_exponent in F. change (2 ^ 11 - 1) with 2047 in F.
  destruct (repr_spec f F) as (m & x & W & Re & M & Fe & Cl & Le). rewrite f_sign_negative in W by exact R. exists (repr_float f), m, x.
  split; [|exact (conj W (conj Re (conj M (conj Fe (conj Cl Le)))))].
  cbn [python_json json dumps js_dumps js_enc bind]. unfold js_dumps. cbn [js_enc bind]. unfold js_float.
  assert (E1 : is_nan f = false) by (unfold is_nan; destruct (Z.eqb_spec (f_expo f) 2047); [contradiction|reflexivity]). rewrite E1.
  destruct (Z.eqb_spec f INF) as [->|_]; [exfalso; apply F; reflexivity|]. destruct (Z.eqb_spec f (2 ^ 63 + INF)) as [->|_]; [exfalso; apply F; reflexivity|]. reflexivity.
Qed.
