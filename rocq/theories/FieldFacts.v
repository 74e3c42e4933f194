(** * FieldFacts: the integers modulo a prime as a field.  Proofs only. *)
From Coq Require Import ZArith Znumtheory Zpow_facts Bool Lia Eqdep_dec Field Field_theory Ring.
From Verif Require Import PrimeFacts.
Local Open Scope Z_scope.

Section Prime.
  Variable p : Z.
  Hypothesis P : prime p.
  Lemma p_pos : 1 < p. Proof. pose proof (prime_ge_2 _ P). lia. Qed.
  Record F := mkF { num : Z; num_ok : (num =? num mod p) = true }.
  Lemma F_eq a b : num a = num b -> a = b.
  Proof. destruct a as [x X], b as [y Y]. cbn. intros E. subst y. f_equal. apply UIP_dec, bool_dec. Qed.
  Lemma reduced z : (z mod p =? (z mod p) mod p) = true.
  Proof. rewrite Z.mod_mod by (pose proof p_pos; lia). apply Z.eqb_refl. Qed.
  Definition of (z : Z) : F := mkF (z mod p) (reduced z).
  Lemma num_range a : 0 <= num a < p.
  Proof. destruct a as [x X]. cbn. apply Z.eqb_eq in X. rewrite X. apply Z.mod_pos_bound. pose proof p_pos; lia. Qed.
  Lemma num_of z : num (of z) = z mod p. Proof. reflexivity. Qed.
  Lemma of_num a : of (num a) = a.
  Proof. apply F_eq. cbn. apply Z.mod_small, num_range. Qed.
  Lemma of_eq a b : of a = of b <-> a mod p = b mod p.
  Proof. split; [intros H; apply (f_equal num) in H; exact H|intros H; apply F_eq; exact H]. Qed.
  Definition fadd a b := of (num a + num b).
  Definition fmul a b := of (num a * num b).
  Definition fsub a b := of (num a - num b).
  Definition fopp a := of (- num a).
  Definition fpow a n := of (num a ^ n).
  Definition finv a := fpow a (p - 2).
  Definition fdiv a b := fmul a (finv b).
  Lemma of_add a b : of (a + b) = fadd (of a) (of b).
  Proof. apply of_eq. rewrite !num_of. apply Zplus_mod. Qed.
  Lemma of_mul a b : of (a * b) = fmul (of a) (of b).
  Proof. apply of_eq. rewrite !num_of. apply Zmult_mod. Qed.
  Lemma of_sub a b : of (a - b) = fsub (of a) (of b).
  Proof. apply of_eq. rewrite !num_of. apply Zminus_mod. Qed.
  Lemma of_opp a : of (- a) = fopp (of a).
  Proof. apply of_eq. rewrite num_of. replace (- a) with (0 - a) by lia. replace (- (a mod p)) with (0 - a mod p) by lia. symmetry. apply Zminus_mod_idemp_r. Qed.
  Lemma of_pow a n : 0 <= n -> of (a ^ n) = fpow (of a) n.
  Proof. intros N. apply of_eq. rewrite num_of. apply Zpower_mod. pose proof p_pos. lia. Qed.
  Lemma of_0 z : of z = of 0 <-> z mod p = 0.
  Proof. rewrite of_eq, Z.mod_0_l by (pose proof p_pos; lia). reflexivity. Qed.
  Ltac nums := repeat match goal with a : F |- _ => rewrite <- (of_num a); generalize (num a); clear a; intros a end.
  Lemma F_ring : ring_theory (of 0) (of 1) fadd fmul fsub fopp (@eq F).
  Proof.
    split; intros; nums; rewrite <- ?of_opp, <- ?of_add, <- ?of_mul, <- ?of_sub, <- ?of_add, <- ?of_mul; f_equal; ring.
  Qed.
  Lemma fpow_one a n : fpow a n = of (num a ^ n). Proof. reflexivity. Qed.
  Lemma fermat_F a : a <> of 0 -> fpow a (p - 1) = of 1.
  Proof.
    intros H. apply of_eq. rewrite Z.mod_1_l by apply p_pos. apply fermat; [exact P|]. intros D. apply H. rewrite <- (of_num a). apply of_0. apply Z.mod_divide; [pose proof p_pos; lia|exact D].
  Qed.
  Lemma fpow_add a m n : 0 <= m -> 0 <= n -> fpow a (m + n) = fmul (fpow a m) (fpow a n).
  Proof. intros M N. unfold fpow. rewrite <- of_mul, Z.pow_add_r by assumption. reflexivity. Qed.
  Lemma fpow_mul a m n : 0 <= m -> 0 <= n -> fpow a (m * n) = fpow (fpow a m) n.
  Proof. intros M N. unfold fpow at 1 3. rewrite Z.pow_mul_r by assumption. rewrite of_pow by assumption. reflexivity. Qed.
  Lemma fpow_1 a : fpow a 1 = a.
  Proof. unfold fpow. rewrite Z.pow_1_r. apply of_num. Qed.
  Lemma F_field : field_theory (of 0) (of 1) fadd fmul fsub fopp fdiv finv (@eq F).
  Proof.
    pose proof p_pos as PP. split.
    - exact F_ring.
    - intros H. apply of_eq in H. rewrite Z.mod_1_l, Z.mod_0_l in H by lia. discriminate.
    - reflexivity.
    - intros a H. unfold finv. rewrite <- (fpow_1 a) at 2. rewrite <- fpow_add by lia. replace (p - 2 + 1) with (p - 1) by lia. apply fermat_F, H.
  Qed.
  Lemma F_dec (a b : F) : {a = b} + {a <> b}.
  Proof. destruct (Z.eq_dec (num a) (num b)) as [E|E]; [left; apply F_eq, E|right; intros H; apply E; rewrite H; reflexivity]. Qed.
  Add Ring FR : F_ring.
  (** Euler: the root of a non-zero square. *)
  Lemma half_power a : a <> of 0 -> p mod 2 = 1 -> fpow a ((p - 1) / 2) = of 1 \/ fpow a ((p - 1) / 2) = of (-1).
  Proof.
    intros H O. pose proof p_pos as PP. set (h := (p - 1) / 2). assert (E : p - 1 = h + h) by (unfold h; Z.div_mod_to_equations; lia). assert (0 <= h) by lia.
    pose proof (fermat_F a H) as G. rewrite E, fpow_add in G by lia. set (y := fpow a h) in *.
    destruct (F_dec y (of 1)) as [Y|Y]; [left; exact Y|]. right. change (-1) with (- (1)). rewrite of_opp.
    assert (Z0 : fmul (fsub y (of 1)) (fadd y (of 1)) = of 0) by (transitivity (fsub (fmul y y) (of 1)); [ring|rewrite G; ring]).
    assert (N : fsub y (of 1) <> of 0) by (intros K; apply Y; transitivity (fadd (fsub y (of 1)) (of 1)); [ring|rewrite K; ring]).
    assert (K : fadd y (of 1) = of 0).
    { transitivity (fmul (finv (fsub y (of 1))) (fmul (fsub y (of 1)) (fadd y (of 1)))); [|rewrite Z0; ring].
      transitivity (fmul (fmul (finv (fsub y (of 1))) (fsub y (of 1))) (fadd y (of 1))); [rewrite (Finv_l F_field _ N); ring|ring]. }
    transitivity (fsub (fadd y (of 1)) (of 1)); [ring|rewrite K; ring].
  Qed.
  Lemma not_square a : p mod 2 = 1 -> p <> 2 -> fpow a ((p - 1) / 2) = of (-1) -> forall s, fmul s s <> a.
  Proof.
    intros O N2 H s E. pose proof p_pos as PP. set (h := (p - 1) / 2) in *. assert (Eh : p - 1 = 2 * h) by (unfold h; Z.div_mod_to_equations; lia). assert (0 < h) by lia.
    assert (S : fmul s s = fpow s 2) by (change 2 with (1 + 1); rewrite fpow_add, !fpow_1 by lia; reflexivity). rewrite <- E, S, <- fpow_mul, <- Eh in H by lia.
    assert (M : of 1 <> of (-1)) by (intros K; apply of_eq in K; rewrite Z.mod_1_l in K by lia; change (-1) with (- (1)) in K; rewrite Z.mod_opp_l_nz in K; rewrite ?Z.mod_1_l in *; lia).
    destruct (F_dec s (of 0)) as [->|NS]; [|rewrite (fermat_F s NS) in H; contradiction].
    rewrite <- of_pow, Z.pow_0_l in H by lia. change (-1) with (- (1)) in H. apply of_eq in H. rewrite Z.mod_0_l, Z.mod_opp_l_nz in H by (rewrite ?Z.mod_1_l; lia). rewrite Z.mod_1_l in H by lia. lia.
  Qed.
End Prime.
