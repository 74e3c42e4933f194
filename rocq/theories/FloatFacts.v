(** * FloatFacts: reading back the text of a float gives the float. *)
From Coq Require Import String Ascii List ZArith Bool Lia.
From Verif Require Import PyBase Rawsocket BitFacts Encoding EncodingFacts Utf8 CodecBase MsgPack Json JsonFacts Float.
Import ListNotations.
Local Open Scope Z_scope.

(** ** Rounding depends only on the value of the fraction *)
Lemma pow_pos e : 0 < 2 ^ e \/ e < 0.
Proof. destruct (Z_lt_le_dec e 0); [auto|]. left. apply Z.pow_pos_nonneg; lia. Qed.

Lemma scale2_pos e n d : 0 <= n -> 0 < d -> 0 <= fst (scale2 e n d) /\ 0 < snd (scale2 e n d).
Proof.
  intros N D. unfold scale2. destruct (Z.leb_spec 0 e); cbn [fst snd].
  - assert (0 < 2 ^ e) by (apply Z.pow_pos_nonneg; lia). nia.
  - assert (0 < 2 ^ (- e)) by (apply Z.pow_pos_nonneg; lia). nia.
Qed.

Lemma pow2_le_spec e n d : pow2_le e n d = true <-> (if 0 <=? e then d * 2 ^ e <= n else d <= n * 2 ^ (- e)).
Proof. unfold pow2_le, scale2. destruct (0 <=? e); rewrite Z.leb_le; tauto. Qed.

Lemma pow2_le_mono e n d : 0 <= n -> 0 < d -> pow2_le (e + 1) n d = true -> pow2_le e n d = true.
Proof.
  intros N D. rewrite !pow2_le_spec. destruct (Z.leb_spec 0 e), (Z.leb_spec 0 (e + 1)); try lia.
  - rewrite Z.pow_add_r by lia. assert (0 < 2 ^ e) by (apply Z.pow_pos_nonneg; lia). lia.
  - assert (e = -1) by lia. subst e. cbn. lia.
  - intros X. replace (- e) with (- (e + 1) + 1) by lia. rewrite Z.pow_add_r by lia.
    assert (0 < 2 ^ (- (e + 1))) by (apply Z.pow_pos_nonneg; lia). nia.
Qed.
Lemma pow2_le_mono' k n d : 0 <= n -> 0 < d -> forall e, pow2_le (e + Z.of_nat k) n d = true -> pow2_le e n d = true.
Proof.
  intros N D. induction k as [|k IH]; intros e H; [rewrite Z.add_0_r in H; exact H|].
  apply IH. apply pow2_le_mono; auto. replace (e + Z.of_nat k + 1) with (e + Z.of_nat (S k)) by lia. exact H.
Qed.
Lemma flog2_unique n d e e' : 0 <= n -> 0 < d -> pow2_le e n d = true -> pow2_le (e + 1) n d = false ->
  pow2_le e' n d = true -> pow2_le (e' + 1) n d = false -> e = e'.
Proof.
  intros N D A B A' B'. destruct (Z.lt_trichotomy e e') as [L|[L|L]]; auto; exfalso.
  - assert (pow2_le (e + 1) n d = true); [|congruence]. apply (pow2_le_mono' (Z.to_nat (e' - (e + 1)))); auto.
    replace (e + 1 + Z.of_nat (Z.to_nat (e' - (e + 1)))) with e' by lia. exact A'.
  - assert (pow2_le (e' + 1) n d = true); [|congruence]. apply (pow2_le_mono' (Z.to_nat (e - (e' + 1)))); auto.
    replace (e' + 1 + Z.of_nat (Z.to_nat (e - (e' + 1)))) with e by lia. exact A.
Qed.

Lemma flog2_spec n d : 0 < n -> 0 < d -> pow2_le (flog2 n d) n d = true /\ pow2_le (flog2 n d + 1) n d = false.
Proof.
  intros N D. unfold flog2. set (e := Z.log2 n - Z.log2 d).
  pose proof (Z.log2_spec n N) as [N1 N2]. pose proof (Z.log2_spec d D) as [D1 D2]. pose proof (Z.log2_nonneg n). pose proof (Z.log2_nonneg d).
  rewrite Z.pow_succ_r in N2, D2 by lia.
  assert (Hi : pow2_le (e + 1) n d = false).
  { destruct (pow2_le (e + 1) n d) eqn:Q; [|reflexivity]. exfalso. apply pow2_le_spec in Q. destruct (Z.leb_spec 0 (e + 1)).
    - assert (2 ^ Z.log2 d * 2 ^ (e + 1) = 2 ^ (Z.log2 n + 1)) by (rewrite <- Z.pow_add_r by lia; f_equal; lia).
      rewrite (Z.pow_add_r 2 (Z.log2 n) 1) in H2 by lia. assert (0 < 2 ^ (e + 1)) by (apply Z.pow_pos_nonneg; lia). nia.
    - assert (2 ^ Z.log2 n * 2 ^ (- (e + 1)) * 2 = 2 ^ Z.log2 d). { rewrite <- Z.mul_assoc, (Z.mul_comm (2 ^ (- (e + 1)))), <- (Z.pow_succ_r 2 (- (e + 1))) by lia. rewrite <- Z.pow_add_r by lia. f_equal. lia. }
      assert (0 < 2 ^ (- (e + 1))) by (apply Z.pow_pos_nonneg; lia). nia. }
  destruct (pow2_le e n d) eqn:Q; [split; [exact Q|exact Hi]|].
  replace (e - 1 + 1) with e by lia. split; [|exact Q].
  apply pow2_le_spec. destruct (Z.leb_spec 0 (e - 1)).
  - assert (2 ^ Z.log2 d * 2 * 2 ^ (e - 1) = 2 ^ Z.log2 n). { rewrite <- Z.mul_assoc, <- Z.pow_succ_r by lia. rewrite <- Z.pow_add_r by lia. f_equal. lia. }
    assert (0 < 2 ^ (e - 1)) by (apply Z.pow_pos_nonneg; lia). nia.
  - assert (2 ^ Z.log2 n * 2 ^ (- (e - 1)) = 2 * 2 ^ Z.log2 d). { rewrite <- Z.pow_add_r by lia. rewrite <- Z.pow_succ_r by lia. f_equal. lia. }
    assert (0 < 2 ^ (- (e - 1))) by (apply Z.pow_pos_nonneg; lia). nia.
Qed.

(** Scaling numerator and denominator. *)
Lemma scale2_mul e k n d : scale2 e (k * n) (k * d) = (k * fst (scale2 e n d), k * snd (scale2 e n d)).
Proof. unfold scale2. destruct (0 <=? e); cbn [fst snd]; f_equal; ring. Qed.
Lemma pow2_le_mul e k n d : 0 < k -> pow2_le e (k * n) (k * d) = pow2_le e n d.
Proof.
  intros K. unfold pow2_le. rewrite scale2_mul. destruct (scale2 e n d) as [a b]. cbn [fst snd].
  destruct (Z.leb_spec b a), (Z.leb_spec (k * b) (k * a)); nia || reflexivity.
Qed.
Lemma flog2_mul k n d : 0 < k -> 0 < n -> 0 < d -> flog2 (k * n) (k * d) = flog2 n d.
Proof.
  intros K N D. destruct (flog2_spec n d N D) as [A B]. destruct (flog2_spec (k * n) (k * d)) as [A' B']; try nia.
  rewrite pow2_le_mul in A', B' by exact K. eapply flog2_unique with (n := n) (d := d); eauto; lia.
Qed.
Lemma round_even_mul k a b : 0 < k -> 0 < b -> round_even (k * a) (k * b) = round_even a b.
Proof.
  intros K B. unfold round_even. rewrite Z.div_mul_cancel_l by lia. rewrite Z.mul_mod_distr_l by lia.
  replace (2 * (k * (a mod b)) <? k * b) with (2 * (a mod b) <? b).
  2:{ destruct (Z.ltb_spec (2 * (a mod b)) b), (Z.ltb_spec (2 * (k * (a mod b))) (k * b)); nia || reflexivity. }
  replace (k * b <? 2 * (k * (a mod b))) with (b <? 2 * (a mod b)).
  2:{ destruct (Z.ltb_spec b (2 * (a mod b))), (Z.ltb_spec (k * b) (2 * (k * (a mod b)))); nia || reflexivity. }
  reflexivity.
Qed.
Lemma round_q_mul k n d : 0 < k -> 0 <= n -> 0 < d -> round_q (k * n) (k * d) = round_q n d.
Proof.
  intros K N D. unfold round_q. replace (k * n =? 0) with (n =? 0).
  2:{ destruct (Z.eqb_spec n 0), (Z.eqb_spec (k * n) 0); nia || reflexivity. }
  destruct (Z.eqb_spec n 0); [reflexivity|]. rewrite flog2_mul by lia. rewrite scale2_mul.
  pose proof (scale2_pos (Z.max (flog2 n d - 52) (-1074)) n d N D) as [_ P].
  destruct (scale2 (Z.max (flog2 n d - 52) (-1074)) n d) as [a b]. cbn [fst snd] in *. rewrite round_even_mul by assumption. reflexivity.
Qed.
Lemma round_q_eq n d n' d' : 0 <= n -> 0 < d -> 0 <= n' -> 0 < d' -> n * d' = n' * d -> round_q n d = round_q n' d'.
Proof.
  intros N D N' D' E. rewrite <- (round_q_mul d' n d), <- (round_q_mul d n' d') by assumption. f_equal; lia.
Qed.

(** ** Exactness: a float's own value rounds to it *)
Lemma round_even_exact k b : 0 < b -> round_even (k * b) b = k.
Proof. intros B. unfold round_even. rewrite Z.div_mul, Z.mod_mul by lia. destruct (Z.ltb_spec (2 * 0) b); [reflexivity|lia]. Qed.

Lemma f_fields f : 0 <= f_expo f < 2048 /\ 0 <= f_mant f < 2 ^ 52 /\ f_abs f = f_expo f * 2 ^ 52 + f_mant f.
Proof.
  unfold f_expo, f_mant, f_abs. split; [apply Z.mod_pos_bound; lia|]. split; [apply Z.mod_pos_bound; lia|].
  change (2 ^ 63) with (2 ^ 52 * 2 ^ 11). rewrite Z.rem_mul_r by lia. ring.
Qed.

Lemma f_abs_ME f : f_expo f <> 2047 -> 0 <= f_M f < 2 ^ 53 /\ -1074 <= f_E f /\ (f_E f = -1074 \/ 2 ^ 52 <= f_M f) /\
  f_abs f = (f_E f + 1074) * 2 ^ 52 + f_M f /\ f_abs f < INF.
Proof.
  intros H. destruct (f_fields f) as (A & B & C). unfold f_M, f_E, INF. destruct (Z.eqb_spec (f_expo f) 0) as [E|E].
  - rewrite E in C. repeat split; try lia.
  - repeat split; lia.
Qed.

Lemma flog2_ME M E e : 0 < M -> 2 ^ e <= M < 2 ^ (e + 1) -> 0 <= e ->
  flog2 (fst (if 0 <=? E then (M * 2 ^ E, 1) else (M, 2 ^ (- E)))) (snd (if 0 <=? E then (M * 2 ^ E, 1) else (M, 2 ^ (- E)))) = e + E.
Proof.
  intros M0 [L U] E0. rewrite Z.pow_add_r in U by lia.
  set (n := fst _). set (d := snd _).
  assert (ND : 0 < n /\ 0 < d). { unfold n, d. destruct (Z.leb_spec 0 E); cbn [fst snd]; [assert (0 < 2 ^ E) by (apply Z.pow_pos_nonneg; lia); nia|split; [lia|apply Z.pow_pos_nonneg; lia]]. }
  destruct (flog2_spec n d) as [A B]; try lia. eapply flog2_unique with (n := n) (d := d); try lia; eauto.
  - apply pow2_le_spec. unfold n, d. destruct (Z.leb_spec 0 E); cbn [fst snd].
    + destruct (Z.leb_spec 0 (e + E)); [|lia]. rewrite Z.pow_add_r by lia. assert (0 < 2 ^ E) by (apply Z.pow_pos_nonneg; lia). nia.
    + destruct (Z.leb_spec 0 (e + E)).
      * replace (2 ^ (- E) * 2 ^ (e + E)) with (2 ^ e); [lia|]. rewrite <- Z.pow_add_r by lia. f_equal. lia.
      * replace (2 ^ (- E)) with (2 ^ e * 2 ^ (- (e + E))). 2:{ rewrite <- Z.pow_add_r by lia. f_equal. lia. }
        assert (0 < 2 ^ (- (e + E))) by (apply Z.pow_pos_nonneg; lia). nia.
  - match goal with |- ?x = false => destruct x eqn:Q; [|reflexivity] end. exfalso. apply pow2_le_spec in Q. revert Q. unfold n, d. destruct (Z.leb_spec 0 E); cbn [fst snd].
    + destruct (Z.leb_spec 0 (e + E + 1)); [|lia]. rewrite !Z.pow_add_r by lia. assert (0 < 2 ^ E) by (apply Z.pow_pos_nonneg; lia). nia.
    + destruct (Z.leb_spec 0 (e + E + 1)).
      * replace (2 ^ (- E) * 2 ^ (e + E + 1)) with (2 ^ e * 2 ^ 1); [lia|]. rewrite <- !Z.pow_add_r by lia. f_equal. lia.
      * replace (2 ^ (- E)) with (2 ^ e * 2 ^ 1 * 2 ^ (- (e + E + 1))). 2:{ rewrite <- !Z.pow_add_r by lia. f_equal. lia. }
        assert (0 < 2 ^ (- (e + E + 1))) by (apply Z.pow_pos_nonneg; lia). nia.
Qed.

Lemma round_q_exact f : f_expo f <> 2047 -> let (n, d) := f_fraction f in round_q n d = f_abs f.
Proof.
  intros H. destruct (f_abs_ME f H) as (M1 & E1 & C & A & I0). unfold f_fraction. set (M := f_M f) in *. set (E := f_E f) in *.
  destruct (Z.eq_dec M 0) as [Z0|Z0].
  { assert (E = -1074) by lia. replace (if 0 <=? E then (M * 2 ^ E, 1) else (M, 2 ^ (- E))) with (0, 2 ^ 1074) by (rewrite Z0, H0; reflexivity).
    rewrite A, Z0, H0. reflexivity. }
  pose proof (Z.log2_spec M ltac:(lia)) as LS. rewrite <- Z.add_1_r in LS. pose proof (Z.log2_nonneg M) as LN.
  pose proof (flog2_ME M E (Z.log2 M) ltac:(lia) LS LN) as FL.
  destruct (if 0 <=? E then (M * 2 ^ E, 1) else (M, 2 ^ (- E))) as [n d] eqn:ND. cbn [fst snd] in FL.
  unfold round_q.
  assert (N0 : n <> 0 /\ (0 <= E /\ n = M * 2 ^ E /\ d = 1 \/ E < 0 /\ n = M /\ d = 2 ^ (- E))).
  { destruct (Z.leb_spec 0 E); injection ND as <- <-; [|split; [lia|auto]]. split; [|auto]. assert (0 < 2 ^ E) by (apply Z.pow_pos_nonneg; lia). nia. }
  destruct N0 as [N0 N1]. destruct (Z.eqb_spec n 0); [contradiction|]. rewrite FL.
  assert (EE : Z.max (Z.log2 M + E - 52) (-1074) = E).
  { assert (Z.log2 M < 53) by (apply Z.log2_lt_pow2; lia). destruct C as [C|C]; [lia|].
    assert (52 <= Z.log2 M) by (apply Z.log2_le_pow2; lia). lia. }
  rewrite EE. unfold scale2.
  assert (R : (let (a, b) := if 0 <=? E then (n, d * 2 ^ E) else (n * 2 ^ (- E), d) in round_even a b) = M).
  { destruct N1 as [(Ep & -> & ->)|(En & -> & ->)].
    - destruct (Z.leb_spec 0 E); [|lia]. rewrite Z.mul_1_l. apply round_even_exact. apply Z.pow_pos_nonneg; lia.
    - destruct (Z.leb_spec 0 E); [lia|]. apply round_even_exact. apply Z.pow_pos_nonneg; lia. }
  destruct (if 0 <=? E then (n, d * 2 ^ E) else (n * 2 ^ (- E), d)) as [a b]. rewrite R. lia.
Qed.

(** ** The digits found read back as the float *)
Lemma dec_fraction_pos m x : 0 <= m -> 0 <= fst (dec_fraction m x) /\ 0 < snd (dec_fraction m x).
Proof.
  intros M. unfold dec_fraction. destruct (Z.leb_spec 0 x); cbn [fst snd].
  - assert (0 < 10 ^ x) by (apply Z.pow_pos_nonneg; lia). nia.
  - assert (0 < 10 ^ (- x)) by (apply Z.pow_pos_nonneg; lia). lia.
Qed.
Lemma of_decimal_eq m x m' x' : 0 <= m -> 0 <= m' ->
  fst (dec_fraction m x) * snd (dec_fraction m' x') = fst (dec_fraction m' x') * snd (dec_fraction m x) -> of_decimal m x = of_decimal m' x'.
Proof.
  intros M M' E. unfold of_decimal. pose proof (dec_fraction_pos m x M) as P. pose proof (dec_fraction_pos m' x' M') as P'.
  destruct (dec_fraction m x) as [n d]. destruct (dec_fraction m' x') as [n' d']. cbn [fst snd] in *. apply round_q_eq; tauto.
Qed.
(** Moving zeros between digits and exponent. *)
Lemma of_decimal_shift m x j : 0 <= m -> 0 <= j -> of_decimal (m * 10 ^ j) (x - j) = of_decimal m x.
Proof.
  intros M J. assert (0 < 10 ^ j) by (apply Z.pow_pos_nonneg; lia). apply of_decimal_eq; [nia|exact M|]. unfold dec_fraction.
  destruct (Z.leb_spec 0 x), (Z.leb_spec 0 (x - j)); cbn [fst snd]; try lia.
  - rewrite !Z.mul_1_r, <- Z.mul_assoc, <- Z.pow_add_r by lia. f_equal. f_equal. lia.
  - rewrite Z.mul_1_r. rewrite <- Z.mul_assoc, <- Z.pow_add_r by lia. f_equal. f_equal. lia.
  - rewrite <- Z.mul_assoc, <- Z.pow_add_r by lia. f_equal. f_equal. lia.
Qed.

Lemma candidates_nonneg n d x m : 0 <= n -> 0 < d -> In m (candidates n d x) -> 0 <= m.
Proof.
  intros N D. unfold candidates. destruct (if 0 <=? x then (n, d * 10 ^ x) else (n * 10 ^ (- x), d)) as [a b] eqn:E.
  assert (AB : 0 <= a /\ 0 < b).
  { destruct (Z.leb_spec 0 x); injection E as <- <-; [assert (0 < 10 ^ x) by (apply Z.pow_pos_nonneg; lia)|assert (0 < 10 ^ (- x)) by (apply Z.pow_pos_nonneg; lia)]; nia. }
  assert (0 <= a / b) by (apply Z.div_pos; lia). destruct (2 * (a mod b) <? b); cbn [In]; lia.
Qed.

Lemma shortest_ok fuel f n d k : f_expo f <> 2047 -> 0 <= n -> 0 < d -> forall p, let (m, x) := shortest fuel p f n d k in 0 <= m /\ of_decimal m x = f_abs f.
Proof.
  intros H N D. induction fuel as [|fuel IH]; intros p; cbn [shortest].
  - destruct (f_abs_ME f H) as (M1 & E1 & _). pose proof (round_q_exact f H) as R. unfold f_fraction in R.
    destruct (Z.leb_spec 0 (f_E f)).
    + split; [assert (0 < 2 ^ f_E f) by (apply Z.pow_pos_nonneg; lia); nia|]. unfold of_decimal. cbn -[round_q Z.mul Z.pow f_E f_M]. rewrite Z.mul_1_r. exact R.
    + assert (0 < 5 ^ (- f_E f)) by (apply Z.pow_pos_nonneg; lia). split; [nia|]. unfold of_decimal, dec_fraction. destruct (Z.leb_spec 0 (f_E f)); [lia|].
      rewrite <- R. change 10 with (5 * 2). rewrite Z.pow_mul_l. rewrite (Z.mul_comm (f_M f)). apply round_q_mul; [lia|lia|apply Z.pow_pos_nonneg; lia].
  - destruct (find (fun m => of_decimal m (k - p) =? f_abs f) (candidates n d (k - p))) as [m|] eqn:F; [|apply IH].
    apply find_some in F. destruct F as [F1 F2]. apply Z.eqb_eq in F2. split; [eapply candidates_nonneg; eauto|exact F2].
Qed.

(** ** The text of digits *)
Lemma dval_app a b : forall acc, dval acc (a ++ b) = dval (dval acc a) b.
Proof. intros acc. unfold dval. apply fold_left_app. Qed.
Lemma dval_zeros n : forall acc, dval acc (repeat 48 n) = acc * 10 ^ Z.of_nat n.
Proof.
  induction n as [|n IH]; intros acc; [cbn; lia|]. cbn [repeat]. rewrite dval_cons, IH. rewrite Nat2Z.inj_succ, Z.pow_succ_r by lia. ring.
Qed.
Lemma dval_nonneg t : digits t -> forall acc, 0 <= acc -> 0 <= dval acc t.
Proof.
  induction 1 as [|c t C _ IH]; intros acc A; [exact A|]. rewrite dval_cons. apply IH. unfold is_digit in C. apply andb_true_iff in C. lia.
Qed.
Lemma digits_zeros n : digits (repeat 48 n).
Proof. induction n; constructor; auto. Qed.
Lemma strip_zeros_spec t : exists j, t = strip_zeros t ++ repeat 48 j.
Proof.
  induction t as [|c r [j IH]]; [exists 0%nat; reflexivity|]. cbn [strip_zeros]. destruct (strip_zeros r) as [|x y] eqn:E.
  - cbn [app] in IH. destruct (Z.eqb_spec c 48) as [->|N].
    + exists (S j). cbn. f_equal. exact IH.
    + exists j. cbn. f_equal. exact IH.
  - exists j. cbn [app] in *. f_equal. exact IH.
Qed.
Lemma strip_zeros_head c r : c <> 48 -> exists r', strip_zeros (c :: r) = c :: r'.
Proof. intros N. cbn [strip_zeros]. destruct (strip_zeros r); [|eauto]. destruct (Z.eqb_spec c 48); [contradiction|eauto]. Qed.
Lemma zlen_app {A} (a b : list A) : zlen (a ++ b) = zlen a + zlen b.
Proof. unfold zlen. rewrite app_length. lia. Qed.
Lemma digits_app a b : digits (a ++ b) <-> digits a /\ digits b.
Proof. apply Forall_app. Qed.
Lemma dec_digits_ok m : 0 <= m -> digits (dec_digits m) /\ dec_digits m <> [] /\ digits_value (dec_digits m) = m.
Proof.
  intros H. unfold dec_digits. destruct (codes_nonneg m H) as [[N|(c & r & N & C & D)] V].
  - split; [rewrite N; constructor; auto|]. split; [rewrite N; discriminate|exact V].
  - split; [rewrite N; constructor; [unfold is_digit; apply andb_true_iff; lia|exact D]|]. split; [rewrite N; discriminate|exact V].
Qed.
Lemma exp_digits_ok e : 0 <= e -> digits (exp_digits e) /\ exp_digits e <> [] /\ digits_value (exp_digits e) = e.
Proof.
  intros H. unfold exp_digits. destruct (dec_digits_ok e H) as (A & B & C). destruct (e <? 10); [|auto].
  split; [constructor; auto|]. split; [discriminate|exact C].
Qed.

Definition point (fd : text) : text := match fd with [] => [] | _ => 46 :: fd end.
Lemma point_frac fd : digits fd -> frac_text (point fd).
Proof. intros D. destruct fd; [left; reflexivity|right; eexists; split; [reflexivity|split; [discriminate|exact D]]]. Qed.

(** Digits [ds] (first one not zero) with the point after [k] of them. *)
Lemma format_ok ds k : (exists c r, ds = c :: r /\ 49 <= c <= 57 /\ digits r) ->
  exists i fd e, format_digits ds k = i ++ point fd ++ e /\ natural_text i /\ digits fd /\ exp_text e /\ point fd ++ e <> [] /\
    of_decimal (digits_value (i ++ fd)) (exp_value e - zlen fd) = of_decimal (digits_value ds) (k - zlen ds).
Proof.
  intros (c & r & E & C & D). assert (DS : digits ds) by (subst ds; constructor; [unfold is_digit; apply andb_true_iff; lia|exact D]).
  assert (L : zlen ds = 1 + zlen r) by (subst ds; unfold zlen; cbn [length]; lia). assert (L0 : 0 <= zlen r) by (unfold zlen; lia).
  assert (V : 0 <= digits_value ds) by (apply dval_nonneg; [exact DS|lia]).
  unfold format_digits. destruct ((-4 <? k) && (k <=? 16)) eqn:K.
  - apply andb_true_iff in K. destruct (Z.leb_spec k 0).
    + exists [48], (zeros (- k) ++ ds), []. split; [|split; [left; reflexivity|split; [apply digits_app; split; [apply digits_zeros|exact DS]|split; [left; reflexivity|split]]]].
      * rewrite app_nil_r. cbn [app]. f_equal. unfold point. destruct (zeros (- k) ++ ds) eqn:Z0; [|reflexivity]. apply app_eq_nil in Z0. subst ds. destruct Z0; discriminate.
      * subst ds. unfold point. destruct (zeros (- k)); discriminate.
      * cbn [exp_value]. rewrite zlen_app. f_equal.
        -- change (digits_value ([48] ++ zeros (- k) ++ ds)) with (dval 0 (zeros (- k) ++ ds)). rewrite dval_app. unfold zeros. rewrite dval_zeros. reflexivity.
        -- unfold zeros. unfold zlen at 1. rewrite repeat_length. lia.
    + destruct (Z.ltb_spec k (zlen ds)) as [Lt|Ge].
      * assert (F : (0 < Z.to_nat k < length ds)%nat) by (unfold zlen in Lt; lia).
        exists (firstn (Z.to_nat k) ds), (skipn (Z.to_nat k) ds), [].
        assert (S : skipn (Z.to_nat k) ds <> []). { intros Q. apply (f_equal (@length Z)) in Q. rewrite skipn_length in Q. cbn in Q. lia. }
        assert (DD : digits (firstn (Z.to_nat k) ds) /\ digits (skipn (Z.to_nat k) ds)) by (apply digits_app; rewrite firstn_skipn; exact DS).
        rewrite app_nil_r. unfold point. destruct (skipn (Z.to_nat k) ds) as [|y z] eqn:Y; [congruence|]. rewrite <- Y in *.
        split; [reflexivity|]. split; [|split; [tauto|split; [left; reflexivity|split; [discriminate|]]]].
        -- right. subst ds. destruct (Z.to_nat k) as [|q]; [lia|]. cbn [firstn] in *. exists c, (firstn q r). split; [reflexivity|]. split; [exact C|]. destruct DD as [DD _]. inversion DD; assumption.
        -- rewrite firstn_skipn. f_equal. cbn [exp_value]. unfold zlen. rewrite skipn_length. unfold zlen in Lt. lia.
      * exists (ds ++ zeros (k - zlen ds)), [48], []. split; [rewrite <- app_assoc; reflexivity|]. split; [|split; [constructor; auto|split; [left; reflexivity|split; [discriminate|]]]].
        -- right. subst ds. exists c, (r ++ zeros (k - zlen (c :: r))). split; [reflexivity|]. split; [exact C|]. apply digits_app. split; [exact D|apply digits_zeros].
        -- rewrite <- (of_decimal_shift (digits_value ds) (k - zlen ds) (k - zlen ds + 1)) by lia. f_equal.
           ++ change (digits_value ((ds ++ zeros (k - zlen ds)) ++ [48])) with (dval 0 ((ds ++ zeros (k - zlen ds)) ++ [48])).
              rewrite !dval_app. unfold zeros. rewrite dval_zeros. rewrite dval_cons. change (dval 0 ds) with (digits_value ds). unfold dval. cbn [fold_left].
              rewrite Z.pow_add_r by lia. rewrite Z2Nat.id by lia. ring.
           ++ cbn. lia.
  - assert (0 <= Z.abs (k - 1)) as A0 by lia. destruct (exp_digits_ok (Z.abs (k - 1)) A0) as (X1 & X2 & X3).
    exists [c], r, ([101; (if 0 <=? k - 1 then 43 else 45)] ++ exp_digits (Z.abs (k - 1))).
    split; [subst ds; destruct r; reflexivity|]. split; [right; exists c, []; split; [reflexivity|split; [exact C|constructor]]|]. split; [exact D|]. split; [|split].
    + right. exists 101, [if 0 <=? k - 1 then 43 else 45], (exp_digits (Z.abs (k - 1))). split; [reflexivity|]. split; [auto|]. split; [destruct (0 <=? k - 1); auto|]. split; [exact X2|exact X1].
    + destruct (point r); discriminate.
    + f_equal; [subst ds; reflexivity|]. cbn [app exp_value].
      destruct (Z.leb_spec 0 (k - 1)); cbn [Z.eqb Pos.eqb]; cbv iota; rewrite X3; lia.
Qed.

Lemma parse_text s i fd e : (s = [] \/ s = [45]) -> natural_text i -> digits fd -> exp_text e ->
  parse_float (s ++ i ++ point fd ++ e) = (match s with [] => 0 | _ => 2 ^ 63 end) + of_decimal (digits_value (i ++ fd)) (exp_value e - zlen fd).
Proof.
  intros S N D X. unfold parse_float. pose proof (js_number_app (mkNumber s i (point fd ++ e)) []) as J. cbn [n_sign n_int n_rest] in J. rewrite app_nil_r in J.
  rewrite J; [|split; [exact S|split; [exact N|exists (point fd), e; split; [reflexivity|split; [apply point_frac; exact D|exact X]]]]|exact I].
  cbn [n_sign n_int n_rest]. rewrite js_frac_app.
  - replace (tl (point fd)) with fd by (destruct fd; reflexivity). reflexivity.
  - apply point_frac. exact D.
  - destruct X as [->|(x & t & d & -> & [->| ->] & _)]; exact I || reflexivity.
  - destruct X as [->|(x & t & d & -> & [->| ->] & _)]; exact I || discriminate.
Qed.

Lemma f_sign_abs f : 0 <= f < 2 ^ 64 -> f = (if f_sign f then 2 ^ 63 else 0) + f_abs f.
Proof.
  intros H. unfold f_sign, f_abs. destruct (Z_lt_le_dec f (2 ^ 63)).
  - rewrite Z.div_small, Z.mod_small by lia. reflexivity.
  - rewrite <- (Z.div_unique f (2 ^ 63) 1 (f - 2 ^ 63)), <- (Z.mod_unique f (2 ^ 63) 1 (f - 2 ^ 63)) by lia. cbn [Z.odd]. lia.
Qed.

Lemma repr_ok f : 0 <= f < 2 ^ 64 -> f_expo f <> 2047 -> exists s i fd e, repr_float f = s ++ i ++ point fd ++ e /\
  (s = [] \/ s = [45]) /\ natural_text i /\ digits fd /\ exp_text e /\ point fd ++ e <> [] /\ parse_float (repr_float f) = f.
Proof.
  intros R H. destruct (f_abs_ME f H) as (M1 & E1 & C & A & I0).
  assert (B : exists i fd e, (if f_M f =? 0 then codes "0.0"
   else
     let (n, d) := f_fraction f in
     let (m, x) := shortest 17 1 f n d (decpt n d) in
     let ds := strip_zeros (dec_digits m) in
     format_digits ds (zlen (dec_digits m) + x)) = i ++ point fd ++ e /\ natural_text i /\ digits fd /\ exp_text e /\ point fd ++ e <> [] /\
     of_decimal (digits_value (i ++ fd)) (exp_value e - zlen fd) = f_abs f).
  { destruct (Z.eqb_spec (f_M f) 0) as [Z0|Z0].
    - exists [48], [48], []. split; [reflexivity|]. split; [left; reflexivity|]. split; [constructor; auto|]. split; [left; reflexivity|]. split; [discriminate|].
      rewrite A, Z0. assert (f_E f = -1074) by (destruct C; [assumption|lia]). rewrite H0. reflexivity.
    - assert (ND : 0 <= fst (f_fraction f) /\ 0 < snd (f_fraction f)).
      { unfold f_fraction. destruct (Z.leb_spec 0 (f_E f)); cbn [fst snd]; (split; [|lia || (apply Z.pow_pos_nonneg; lia)]); [|lia]. assert (0 < 2 ^ f_E f) by (apply Z.pow_pos_nonneg; lia). nia. }
      destruct (f_fraction f) as [n d]. cbn [fst snd] in ND.
      pose proof (shortest_ok 17 f n d (decpt n d) H (proj1 ND) (proj2 ND) 1) as S. destruct (shortest 17 1 f n d (decpt n d)) as [m x]. destruct S as [S0 S1].
      assert (M0 : m <> 0). { intros ->. unfold of_decimal, dec_fraction in S1. rewrite Z.mul_0_l in S1. destruct (0 <=? x); unfold round_q in S1; cbn [Z.eqb] in S1; lia. }
      cbv zeta. destruct (codes_nonneg m S0) as [[N|(c & r & N & CC & D)] V].
      { exfalso. rewrite N in V. cbn in V. congruence. }
      unfold dec_digits. destruct (strip_zeros_head c r) as [r' Hd]; [lia|]. destruct (strip_zeros_spec (codes (str_of_Z m))) as [j J].
      rewrite N in *. rewrite Hd in *.
      assert (D' : digits r'). { injection J as J. rewrite J in D. apply digits_app in D. tauto. }
      destruct (format_ok (c :: r') (zlen (c :: r) + x)) as (i & fd & e & F1 & F2 & F3 & F4 & F5 & F6).
      { exists c, r'. auto. }
      exists i, fd, e. repeat (split; [assumption|]). rewrite F6, <- S1. rewrite <- V, J.
      change (digits_value ((c :: r') ++ repeat 48 j)) with (dval 0 ((c :: r') ++ repeat 48 j)). rewrite dval_app, dval_zeros, zlen_app.
      change (dval 0 (c :: r')) with (digits_value (c :: r')).
      assert (NN : 0 <= digits_value (c :: r')). { apply dval_nonneg; [|lia]. constructor; [unfold is_digit; apply andb_true_iff; lia|exact D']. }
      rewrite <- (of_decimal_shift (digits_value (c :: r')) _ (Z.of_nat j)) by lia. f_equal. unfold zlen. rewrite repeat_length. lia. }
  destruct B as (i & fd & e & B1 & B2 & B3 & B4 & B5 & B6). exists (if f_sign f then [45] else []), i, fd, e.
  assert (E : repr_float f = (if f_sign f then [45] else []) ++ i ++ point fd ++ e) by (unfold repr_float; f_equal; exact B1).
  assert (Sg : (if f_sign f then [45] else []) = [] \/ (if f_sign f then [45] else []) = [45]) by (destruct (f_sign f); auto).
  split; [exact E|]. split; [exact Sg|]. repeat (split; [assumption|]).
  rewrite E, parse_text by assumption. rewrite B6. rewrite (f_sign_abs f R) at 3. destruct (f_sign f); reflexivity.
Qed.

Lemma python_floats_ok : floats_ok python_floats.
Proof.
  intros f R H. destruct (repr_ok f R H) as (s & i & fd & e & E & S & N & D & X & NE & P). exists (mkNumber s i (point fd ++ e)).
  cbn [float_repr float_of python_floats n_sign n_int n_rest]. split; [exact E|]. split; [|split; [exact NE|exact P]].
  split; [exact S|]. split; [exact N|]. exists (point fd), e. split; [reflexivity|]. split; [apply point_frac; exact D|exact X].
Qed.

(** ** Reading gives a float *)
Lemma round_q_range n d : 0 <= n -> 0 < d -> 0 <= round_q n d <= INF.
Proof.
  intros N D. unfold round_q, INF. destruct (n =? 0); [lia|].
  pose proof (scale2_pos (Z.max (flog2 n d - 52) (-1074)) n d N D) as P.
  destruct (scale2 (Z.max (flog2 n d - 52) (-1074)) n d) as [a b]. cbn [fst snd] in P.
  assert (0 <= round_even a b). { unfold round_even. assert (0 <= a / b) by (apply Z.div_pos; lia). destruct (2 * (a mod b) <? b); [lia|]. destruct (b <? 2 * (a mod b)); [lia|]. destruct (Z.even (a / b)); lia. }
  lia.
Qed.
Lemma of_decimal_range m x : 0 <= m -> 0 <= of_decimal m x <= INF.
Proof. intros M. unfold of_decimal. pose proof (dec_fraction_pos m x M) as P. destruct (dec_fraction m x). apply round_q_range; apply P. Qed.
Lemma span_digits_digits t : digits (fst (span_digits t)).
Proof. induction t as [|c r IH]; cbn [span_digits]; [constructor|]. destruct (is_digit c) eqn:C; [|constructor]. destruct (span_digits r). constructor; assumption. Qed.
Lemma js_natural_digits t i r : js_natural t = Some (i, r) -> digits i.
Proof.
  unfold js_natural. destruct t as [|c t]; [discriminate|]. destruct (c =? 48). { intros [= <- _]. constructor; auto. }
  destruct (is_digit c); [|discriminate]. pose proof (span_digits_digits (c :: t)) as H. destruct (span_digits (c :: t)) as [a b]. intros E. cbn [fst] in H. congruence.
Qed.
Lemma js_frac_digits t : digits (tl (fst (js_frac t))).
Proof.
  unfold js_frac. destruct t as [|c t]; [constructor|]. destruct (c =? 46); [|constructor].
  pose proof (span_digits_digits t) as H. destruct (span_digits t) as [[|x d] r]; [constructor|exact H].
Qed.
Lemma python_floats_bounded : floats_bounded python_floats.
Proof.
  intros t. cbn [float_of python_floats]. unfold parse_float. destruct (js_number t) as [[n r]|] eqn:J; [|lia].
  assert (D : digits (n_int n)).
  { unfold js_number in J. destruct (js_sign t) as [s t1]. destruct (js_natural t1) as [[i t2]|] eqn:N; [|discriminate].
    destruct (js_frac t2). destruct (js_exp _). injection J as <- _. eapply js_natural_digits. exact N. }
  pose proof (js_frac_digits (n_rest n)) as F. destruct (js_frac (n_rest n)) as [f e]. cbn [fst] in F.
  pose proof (of_decimal_range (digits_value (n_int n ++ tl f)) (exp_value e - zlen (tl f))) as Rg.
  assert (0 <= digits_value (n_int n ++ tl f)). { apply dval_nonneg; [apply digits_app; auto|lia]. }
  specialize (Rg H). unfold INF in Rg. destruct (n_sign n); lia.
Qed.
