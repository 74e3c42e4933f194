(** * EdwardsFacts: the group law of the twisted Edwards curve [-x^2 + y^2 = 1 + d x^2 y^2] over a field in which -1 is a square and
    [d] is not; multiples; extended coordinates.  Proofs only. *)
From Coq Require Import Field Field_theory Ring.
Section Edwards.
  Variable K : Type.
  Variables (rO rI : K) (radd rmul rsub : K -> K -> K) (ropp : K -> K) (rdiv : K -> K -> K) (rinv : K -> K).
  Hypothesis FT : field_theory rO rI radd rmul rsub ropp rdiv rinv (@eq K).
  Add Field KF : FT.
  Notation "0" := rO. Notation "1" := rI.
  Infix "+" := radd. Infix "*" := rmul. Infix "-" := rsub. Notation "- x" := (ropp x). Infix "/" := rdiv.
  Hypothesis dec : forall a b : K, {a = b} + {a <> b}.
  Variables d i : K.
  Hypothesis I2 : i * i = - (1).
  Hypothesis D2 : forall s, s * s <> d.
  Hypothesis two : 1 + 1 <> 0.
  Lemma one_zero : 1 <> 0. Proof. apply (F_1_neq_0 FT). Qed.
  Lemma mul_inv x : x <> 0 -> rinv x * x = 1. Proof. apply (Finv_l FT). Qed.
  Lemma mul_zero a b : a * b = 0 -> a = 0 \/ b = 0.
  Proof. intros H. destruct (dec a 0) as [A|A]; [auto|]. right. transitivity (rinv a * (a * b)); [|rewrite H; ring]. transitivity ((rinv a * a) * b); [rewrite mul_inv by exact A; ring|ring]. Qed.
  Lemma mul_ne a b : a <> 0 -> b <> 0 -> a * b <> 0.
  Proof. intros A B H. apply mul_zero in H. tauto. Qed.
  Lemma sub_eq a b : a - b = 0 -> a = b.
  Proof. intros H. transitivity (a - b + b); [ring|rewrite H; ring]. Qed.
  Lemma d_ne : d <> 0. Proof. intros E. apply (D2 0). rewrite E. ring. Qed.

  Definition point := (K * K)%type.
  Definition on (p : point) : Prop := let (x, y) := p in y * y - x * x = 1 + d * (x * x) * (y * y).
  Definition padd (p q : point) : point :=
    let (x1, y1) := p in let (x2, y2) := q in
    ((x1 * y2 + x2 * y1) / (1 + d * x1 * x2 * y1 * y2), (y1 * y2 + x1 * x2) / (1 - d * x1 * x2 * y1 * y2)).
  Definition pzero : point := (0, 1).
  Definition pneg (p : point) : point := let (x, y) := p in (- x, y).

  (** Completeness *)
  Lemma complete x1 y1 x2 y2 e : on (x1, y1) -> on (x2, y2) -> e = d * x1 * x2 * y1 * y2 -> e * e <> 1.
  Proof.
    intros H1 H2 E Q. cbn in H1, H2.
    assert (N : e <> 0) by (intros Z; rewrite Z in Q; apply one_zero; rewrite <- Q; ring).
    assert (X1 : x1 <> 0) by (intros Z; apply N; rewrite E, Z; ring).
    assert (Y1 : y1 <> 0) by (intros Z; apply N; rewrite E, Z; ring).
    assert (Y2 : y2 <> 0) by (intros Z; apply N; rewrite E, Z; ring).
    assert (A : y1 * y1 - x1 * x1 = d * (x1 * x1) * (y1 * y1) * (y2 * y2 - x2 * x2)).
    { transitivity (e * e + d * (x1 * x1) * (y1 * y1)); [rewrite H1, Q; reflexivity|rewrite H2, E; ring]. }
    assert (S : forall t, t * t = - (1) -> t * x2 + y2 = 0).
    { intros t T. destruct (dec (t * x2 + y2) 0) as [Z|Z]; [exact Z|]. exfalso. apply (D2 ((t * x1 + e * y1) / (x1 * y1 * (t * x2 + y2)))).
      assert (B : (t * x1 + e * y1) * (t * x1 + e * y1) = d * (x1 * y1 * (t * x2 + y2)) * (x1 * y1 * (t * x2 + y2))).
      { transitivity ((t * t) * (x1 * x1) + (e * e) * (y1 * y1) + (1 + 1) * t * x1 * y1 * e); [ring|]. rewrite T, Q. transitivity ((y1 * y1 - x1 * x1) + (1 + 1) * t * x1 * y1 * e); [ring|]. rewrite A, E.
        transitivity (d * (x1 * x1) * (y1 * y1) * (y2 * y2 + - (1) * (x2 * x2)) + (1 + 1) * t * x1 * y1 * (d * x1 * x2 * y1 * y2)); [ring|]. rewrite <- T. ring. }
      transitivity (((t * x1 + e * y1) * (t * x1 + e * y1)) / ((x1 * y1 * (t * x2 + y2)) * (x1 * y1 * (t * x2 + y2)))); [field; tauto|]. rewrite B. field. tauto. }
    pose proof (S i I2) as S1. assert (I3 : (- i) * (- i) = - (1)) by (rewrite <- I2; ring). pose proof (S (- i) I3) as S2.
    apply (mul_ne (1 + 1) y2 two Y2). transitivity ((i * x2 + y2) + (- i * x2 + y2)); [ring|]. rewrite S1, S2. ring.
  Qed.
  Lemma plus_ne x1 y1 x2 y2 : on (x1, y1) -> on (x2, y2) -> 1 + d * x1 * x2 * y1 * y2 <> 0.
  Proof. intros H1 H2 E. apply (complete x1 y1 x2 y2 _ H1 H2 eq_refl). assert (F : d * x1 * x2 * y1 * y2 = - (1)) by (apply sub_eq; rewrite <- E; ring). rewrite F. ring. Qed.
  Lemma minus_ne x1 y1 x2 y2 : on (x1, y1) -> on (x2, y2) -> 1 - d * x1 * x2 * y1 * y2 <> 0.
  Proof. intros H1 H2 E. apply (complete x1 y1 x2 y2 _ H1 H2 eq_refl). assert (F : d * x1 * x2 * y1 * y2 = 1) by (symmetry; apply sub_eq; exact E). rewrite F. ring. Qed.

  Lemma div_eq a b c e : b <> 0 -> e <> 0 -> a * e = c * b -> a / b = c / e.
  Proof. intros B E H. transitivity ((a * e) / (b * e)); [field; auto|]. rewrite H. field. auto. Qed.
  (** The curve equation, for rewriting. *)
  Lemma curve x y : on (x, y) -> d * x * x * y * y = y * y - x * x - 1.
  Proof. cbn. intros H. transitivity (1 + d * (x * x) * (y * y) - 1); [ring|]. rewrite <- H. ring. Qed.
  Lemma curve' x y : on (x, y) -> x * x * y * y = rinv d * (y * y - x * x - 1).
  Proof. intros H. rewrite <- (curve x y H). transitivity ((rinv d * d) * (x * x * y * y)); [rewrite mul_inv by exact d_ne; ring|ring]. Qed.

  Theorem closed p q : on p -> on q -> on (padd p q).
  Proof.
    destruct p as [x1 y1], q as [x2 y2]. intros H1 H2. pose proof (plus_ne _ _ _ _ H1 H2) as A. pose proof (minus_ne _ _ _ _ H1 H2) as B.
    pose proof (curve _ _ H1) as C1. pose proof (curve _ _ H2) as C2. pose proof (curve' _ _ H1) as E1. pose proof (curve' _ _ H2) as E2. cbn [padd on].
    assert (DI : d * rinv d = 1) by (rewrite <- (mul_inv d d_ne); ring). set (di := rinv d) in *. clearbody di.
    assert (G : forall a b u v, u <> 0 -> v <> 0 -> (b * b) * (u * u) - (a * a) * (v * v) = (u * u) * (v * v) + d * (a * a) * (b * b) -> (b / v) * (b / v) - (a / u) * (a / u) = 1 + d * ((a / u) * (a / u)) * ((b / v) * (b / v))).
    { clear - FT. intros a b u v U V H. transitivity (((b * b) * (u * u) - (a * a) * (v * v)) / (u * u * (v * v))); [field; auto|]. rewrite H. field. auto. }
    apply G; [exact A|exact B|]. clear G A B C1 C2.
    ring [E1 E2 DI].
  Qed.
  Theorem assoc p q r : on p -> on q -> on r -> padd p (padd q r) = padd (padd p q) r.
  Proof.
    intros HP HQ HR. pose proof (closed _ _ HP HQ) as HPQ. pose proof (closed _ _ HQ HR) as HQR. destruct p as [x1 y1], q as [x2 y2], r as [x3 y3].
    cbn [padd] in *.
    pose proof (plus_ne _ _ _ _ HP HQ) as A1. pose proof (minus_ne _ _ _ _ HP HQ) as A2. pose proof (plus_ne _ _ _ _ HQ HR) as A3. pose proof (minus_ne _ _ _ _ HQ HR) as A4.
    pose proof (plus_ne _ _ _ _ HP HQR) as B1. pose proof (minus_ne _ _ _ _ HP HQR) as B2. pose proof (plus_ne _ _ _ _ HPQ HR) as B3. pose proof (minus_ne _ _ _ _ HPQ HR) as B4.
    pose proof (curve' _ _ HP) as E1. pose proof (curve' _ _ HQ) as E2. pose proof (curve' _ _ HR) as E3.
    assert (DI : d * rinv d = 1) by (rewrite <- (mul_inv d d_ne); ring). set (di := rinv d) in *. clearbody di.
    set (a := x1 * y2 + x2 * y1) in *. set (u := 1 + d * x1 * x2 * y1 * y2) in *. set (b := y1 * y2 + x1 * x2) in *. set (v := 1 - d * x1 * x2 * y1 * y2) in *.
    set (a' := x2 * y3 + x3 * y2) in *. set (u' := 1 + d * x2 * x3 * y2 * y3) in *. set (b' := y2 * y3 + x2 * x3) in *. set (v' := 1 - d * x2 * x3 * y2 * y3) in *.
    assert (B1' : u' * v' + d * x1 * a' * y1 * b' <> 0) by (intros N; apply B1; transitivity ((u' * v' + d * x1 * a' * y1 * b') / (u' * v')); [field; auto|rewrite N; field; auto]).
    assert (B2' : u' * v' - d * x1 * a' * y1 * b' <> 0) by (intros N; apply B2; transitivity ((u' * v' - d * x1 * a' * y1 * b') / (u' * v')); [field; auto|rewrite N; field; auto]).
    assert (B3' : u * v + d * a * x3 * b * y3 <> 0) by (intros N; apply B3; transitivity ((u * v + d * a * x3 * b * y3) / (u * v)); [field; auto|rewrite N; field; auto]).
    assert (B4' : u * v - d * a * x3 * b * y3 <> 0) by (intros N; apply B4; transitivity ((u * v - d * a * x3 * b * y3) / (u * v)); [field; auto|rewrite N; field; auto]).
    f_equal.
    - transitivity ((x1 * b' * u' + a' * y1 * v') / (u' * v' + d * x1 * a' * y1 * b')); [field; auto|]. transitivity ((a * y3 * v + x3 * b * u) / (u * v + d * a * x3 * b * y3)); [|field; auto].
      apply div_eq; [assumption|assumption|]. clear - FT E1 E2 E3 DI. unfold a, b, u, v, a', b', u', v'. clear a b u v a' b' u' v'. ring [E1 E2 E3 DI].
    - transitivity ((y1 * b' * u' + x1 * a' * v') / (u' * v' - d * x1 * a' * y1 * b')); [field; auto|]. transitivity ((b * y3 * u + a * x3 * v) / (u * v - d * a * x3 * b * y3)); [|field; auto].
      apply div_eq; [assumption|assumption|]. clear - FT E1 E2 E3 DI. unfold a, b, u, v, a', b', u', v'. clear a b u v a' b' u' v'. ring [E1 E2 E3 DI].
  Qed.
  Theorem comm p q : padd p q = padd q p.
  Proof.
    destruct p as [x1 y1], q as [x2 y2]. cbn [padd].
    replace (d * x2 * x1 * y2 * y1) with (d * x1 * x2 * y1 * y2) by ring. f_equal; f_equal; ring.
  Qed.
  Theorem add_zero p : padd p pzero = p.
  Proof. destruct p as [x y]. unfold pzero. cbn [padd]. apply f_equal2; field; intros H; apply one_zero; rewrite <- H; ring. Qed.
  Lemma on_zero : on pzero. Proof. cbn. ring. Qed.
  Lemma on_neg p : on p -> on (pneg p).
  Proof. destruct p as [x y]. cbn. intros H. transitivity (y * y - x * x); [ring|]. rewrite H. ring. Qed.
  Theorem add_neg p : on p -> padd p (pneg p) = pzero.
  Proof.
    destruct p as [x y]. intros H. pose proof (plus_ne _ _ _ _ H (on_neg _ H)) as A. pose proof (minus_ne _ _ _ _ H (on_neg _ H)) as B. cbn [padd pneg] in *. cbn in H. unfold pzero. apply f_equal2.
    - field. exact A.
    - assert (E : 1 - d * x * - x * y * y = y * y + x * - x) by (transitivity (1 + d * (x * x) * (y * y)); [ring|rewrite <- H; ring]). rewrite <- E. field. exact B.
  Qed.

  (** ** Multiples *)
  Fixpoint nmul (n : nat) (p : point) : point := match n with O => pzero | S n' => padd p (nmul n' p) end.
  Lemma on_nmul n p : on p -> on (nmul n p).
  Proof. intros H. induction n as [|n IH]; cbn [nmul]; [apply on_zero|]. apply closed; assumption. Qed.
  Lemma zero_add p : padd pzero p = p.
  Proof. rewrite comm. apply add_zero. Qed.
  Lemma nmul_plus a b p : on p -> nmul (a + b) p = padd (nmul a p) (nmul b p).
  Proof.
    intros H. induction a as [|a IH]; cbn [Nat.add nmul]; [rewrite zero_add; reflexivity|]. rewrite IH. apply assoc; [exact H|apply on_nmul, H|apply on_nmul, H].
  Qed.
  Lemma nmul_times a b p : on p -> nmul (a * b) p = nmul a (nmul b p).
  Proof. intros H. induction a as [|a IH]; [reflexivity|]. cbn [Nat.mul nmul]. rewrite nmul_plus by exact H. rewrite IH. reflexivity. Qed.
  Lemma nmul_zero n : nmul n pzero = pzero.
  Proof. induction n as [|n IH]; [reflexivity|]. cbn [nmul]. rewrite IH. apply add_zero. Qed.
  Lemma neg_add p q : pneg (padd p q) = padd (pneg p) (pneg q).
  Proof.
    destruct p as [x1 y1], q as [x2 y2]. cbn [padd pneg]. replace (d * - x1 * - x2 * y1 * y2) with (d * x1 * x2 * y1 * y2) by ring. f_equal.
    - rewrite !(Fdiv_def FT). ring.
    - f_equal. ring.
  Qed.
  Lemma nmul_neg n p : nmul n (pneg p) = pneg (nmul n p).
  Proof. induction n as [|n IH]; cbn [nmul]; [unfold pzero; cbn [pneg]; apply f_equal2; [ring|reflexivity]|]. rewrite IH, neg_add. reflexivity. Qed.
  (** Cancelling. *)
  Lemma add_cancel p q r : on p -> on q -> on r -> padd p q = r -> q = padd r (pneg p).
  Proof. intros P Q R <-. rewrite (comm p q), <- assoc by (try assumption; apply on_neg; assumption). rewrite add_neg by exact P. symmetry. apply add_zero. Qed.

  (** ** Extended homogeneous coordinates *)
  Definition ext (X Y Z T : K) (p : point) : Prop := let (x, y) := p in Z <> 0 /\ X = x * Z /\ Y = y * Z /\ T = x * y * Z.
  Theorem ext_add X1 Y1 Z1 T1 X2 Y2 Z2 T2 p q : on p -> on q -> ext X1 Y1 Z1 T1 p -> ext X2 Y2 Z2 T2 q ->
    let A := (Y1 - X1) * (Y2 - X2) in let B := (Y1 + X1) * (Y2 + X2) in
    let C := (1 + 1) * T1 * (T2 * d) in let D := (1 + 1) * Z1 * Z2 in
    ext ((B - A) * (D - C)) ((D + C) * (B + A)) ((D - C) * (D + C)) ((B - A) * (B + A)) (padd p q).
  Proof.
    destruct p as [x1 y1], q as [x2 y2]. intros P Q (N1 & -> & -> & ->) (N2 & -> & -> & ->). pose proof (plus_ne _ _ _ _ P Q) as U. pose proof (minus_ne _ _ _ _ P Q) as V. cbv zeta. cbn [padd ext].
    split; [|repeat split; field; auto].
    replace ((1 + 1) * Z1 * Z2 - (1 + 1) * (x1 * y1 * Z1) * (x2 * y2 * Z2 * d)) with ((1 + 1) * Z1 * Z2 * (1 - d * x1 * x2 * y1 * y2)) by ring.
    replace ((1 + 1) * Z1 * Z2 + (1 + 1) * (x1 * y1 * Z1) * (x2 * y2 * Z2 * d)) with ((1 + 1) * Z1 * Z2 * (1 + d * x1 * x2 * y1 * y2)) by ring.
    repeat apply mul_ne; assumption.
  Qed.
  Lemma ext_neg X Y Z T p : ext X Y Z T p -> ext (- X) Y Z (- T) (pneg p).
  Proof. destruct p as [x y]. intros (N & -> & -> & ->). cbn. repeat split; [exact N|ring|ring]. Qed.
  Lemma ext_zero X Y Z T p : ext X Y Z T p -> (X = 0 /\ Y - Z = 0 <-> p = pzero).
  Proof.
    destruct p as [x y]. intros (N & -> & -> & ->). unfold pzero. split.
    - intros [A B]. apply mul_zero in A. destruct A as [A|A]; [|contradiction]. assert (C : (y - 1) * Z = 0) by (rewrite <- B; ring). apply mul_zero in C. destruct C as [C|C]; [|contradiction]. apply sub_eq in C. subst. reflexivity.
    - intros E. injection E as -> ->. split; ring.
  Qed.

  (** ** Recovering [x] from [y] *)
  Lemma denominator y : d * (y * y) + 1 <> 0.
  Proof.
    intros E. assert (Y : y <> 0) by (intros ->; apply one_zero; rewrite <- E; ring). apply (D2 (i / y)). transitivity ((i * i) / (y * y)); [field; exact Y|]. rewrite I2.
    transitivity ((d * (y * y) + 1 - 1) / (y * y)); [rewrite E; field; exact Y|field; exact Y].
  Qed.
  Lemma x_squared x y : on (x, y) -> (y * y - 1) * rinv (d * (y * y) + 1) = x * x.
  Proof.
    cbn. intros H. pose proof (denominator y) as N. transitivity ((y * y - 1) / (d * (y * y) + 1)); [rewrite (Fdiv_def FT); reflexivity|]. transitivity ((x * x * (d * (y * y) + 1)) / (d * (y * y) + 1)); [|field; exact N].
    f_equal. transitivity (1 + d * (x * x) * (y * y) + x * x - 1); [rewrite <- H; ring|ring].
  Qed.
  Lemma square_roots a b : a * a = b * b -> a = b \/ a = - b.
  Proof.
    intros H. assert (E : (a - b) * (a + b) = 0) by (transitivity (a * a - b * b); [ring|rewrite H; ring]). apply mul_zero in E. destruct E as [E|E]; [left; apply sub_eq, E|right]. apply sub_eq. rewrite <- E. ring.
  Qed.
End Edwards.
