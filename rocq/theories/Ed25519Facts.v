(** * Ed25519Facts: Ed25519.v computes with the group of the curve; signatures verify.  Proofs only. *)
From Coq Require Import String Ascii List ZArith NArith Znumtheory Zpow_facts Bool Lia Field Field_theory Ring.
From Verif Require Import PyBase Rawsocket Encoding Auth Sha2 Ed25519 SpecBase64 SpecSha2 Sha2Facts CryptoFacts PrimeFacts EdwardsFacts FieldFacts.
Import ListNotations.
Local Open Scope Z_scope.
Local Open Scope list_scope.

Lemma prime_P : prime P25519. Proof. exact prime_P25519. Qed.
Lemma prime_L : prime L25519. Proof. exact prime_L25519. Qed.
Notation FF := (F P25519).
Definition o (z : Z) : FF := of P25519 prime_P z.
Notation "a +' b" := (fadd P25519 prime_P a b) (at level 50, left associativity).
Notation "a -' b" := (fsub P25519 prime_P a b) (at level 50, left associativity).
Notation "a *' b" := (fmul P25519 prime_P a b) (at level 40, left associativity).
Notation "-' a" := (fopp P25519 prime_P a) (at level 35).
Notation inv' := (finv P25519 prime_P).
Notation pow' := (fpow P25519 prime_P).
Definition FT : field_theory (o 0) (o 1) (fadd P25519 prime_P) (fmul P25519 prime_P) (fsub P25519 prime_P) (fopp P25519 prime_P) (fdiv P25519 prime_P) inv' (@eq FF) := F_field P25519 prime_P.
Add Field FF25519 : FT.

Lemma o_eq a b : o a = o b <-> a mod P25519 = b mod P25519. Proof. apply of_eq. Qed.
Lemma o_add a b : o (a + b) = o a +' o b. Proof. apply of_add. Qed.
Lemma o_mul a b : o (a * b) = o a *' o b. Proof. apply of_mul. Qed.
Lemma o_sub a b : o (a - b) = o a -' o b. Proof. apply of_sub. Qed.
Lemma o_opp a : o (- a) = -' o a. Proof. apply of_opp. Qed.
Lemma o_num a : o (num P25519 a) = a. Proof. apply of_num. Qed.
Lemma o_mod a : o (a mod P25519) = o a.
Proof. apply o_eq. apply Z.mod_mod. discriminate. Qed.

(** ** Constants *)
Definition dd : FF := o D25519.
Definition ii : FF := o SQRT_M1.
Lemma I2 : ii *' ii = -' o 1.
Proof. unfold ii. rewrite <- o_mul, <- o_opp. apply o_eq. vm_compute. reflexivity. Qed.
Lemma fold_mod x : fold25519 x mod P25519 = x mod P25519.
Proof.
  unfold fold25519. change (2 ^ 255 - 1) with (Z.ones 255). rewrite Z.land_ones, Z.shiftr_div_pow2 by lia.
  pose proof (Z.div_mod x (2 ^ 255) ltac:(discriminate)) as E. change (2 ^ 255) with (P25519 + 19) in E at 1. set (r := x mod 2 ^ 255) in *. set (q := x / 2 ^ 255) in *.
  replace x with (r + 19 * q + q * P25519) by lia. symmetry. apply Z.mod_add. discriminate.
Qed.
Lemma o_red x : o (red x) = o x.
Proof. apply o_eq. unfold red. rewrite !fold_mod. reflexivity. Qed.
Lemma pow_pos_ok b e : o (pow_pos b e) = pow' (o b) (Zpos e).
Proof.
  induction e as [e IH|e IH|]; cbn [pow_pos]; cbv zeta.
  - rewrite o_red, o_mul, o_red, o_mul, IH. rewrite Pos2Z.inj_xI, Z.add_comm. replace (1 + 2 * Zpos e) with (Zpos e + Zpos e + 1) by lia. rewrite !fpow_add, fpow_1 by lia. reflexivity.
  - rewrite o_red, o_mul, IH. rewrite Pos2Z.inj_xO. replace (2 * Zpos e) with (Zpos e + Zpos e) by lia. rewrite fpow_add by lia. reflexivity.
  - rewrite o_red, fpow_1. reflexivity.
Qed.
(** [d = -121665/121666], and [121665 * 121666] is not a square. *)
Lemma no_root : forall s, s *' s <> o (121665 * 121666).
Proof.
  apply not_square; [reflexivity|discriminate|]. change ((P25519 - 1) / 2) with (Zpos (Z.to_pos ((P25519 - 1) / 2))). change (of P25519 prime_P) with o. rewrite <- pow_pos_ok.
  apply o_eq. vm_compute. reflexivity.
Qed.
Lemma D2 : forall s, s *' s <> dd.
Proof.
  intros s E. apply (no_root (o 121666 *' s *' ii)). transitivity (o 121666 *' o 121666 *' (s *' s) *' (ii *' ii)); [ring|]. rewrite E, I2. unfold dd. rewrite <- o_opp, <- !o_mul. apply o_eq. vm_compute. reflexivity.
Qed.
Lemma two : o 1 +' o 1 <> o 0.
Proof. rewrite <- o_add. intros H. apply o_eq in H. vm_compute in H. discriminate. Qed.
Notation dec := (F_dec P25519).
Notation apoint := (FF * FF)%type.
Definition On : apoint -> Prop := on FF (o 1) (fadd P25519 prime_P) (fmul P25519 prime_P) (fsub P25519 prime_P) dd.
Definition Add : apoint -> apoint -> apoint := padd FF (o 1) (fadd P25519 prime_P) (fmul P25519 prime_P) (fsub P25519 prime_P) (fdiv P25519 prime_P) dd.
Definition Neg : apoint -> apoint := pneg FF (fopp P25519 prime_P).
Definition Zero : apoint := pzero FF (o 0) (o 1).
Definition Mul : nat -> apoint -> apoint := nmul FF (o 0) (o 1) (fadd P25519 prime_P) (fmul P25519 prime_P) (fsub P25519 prime_P) (fdiv P25519 prime_P) dd.
Definition Ext (x y z t : Z) (P : apoint) : Prop := ext FF (o 0) (fmul P25519 prime_P) (o x) (o y) (o z) (o t) P.
Lemma On_add P Q : On P -> On Q -> On (Add P Q). Proof. apply (closed _ _ _ _ _ _ _ _ _ FT dec dd ii I2 D2 two). Qed.
Lemma Add_assoc P Q R : On P -> On Q -> On R -> Add P (Add Q R) = Add (Add P Q) R. Proof. apply (assoc _ _ _ _ _ _ _ _ _ FT dec dd ii I2 D2 two). Qed.
Lemma Add_comm P Q : Add P Q = Add Q P. Proof. apply (comm _ _ _ _ _ _ _ _ _ FT). Qed.
Lemma Add_zero P : Add P Zero = P. Proof. apply (add_zero _ _ _ _ _ _ _ _ _ FT). Qed.
Lemma On_zero : On Zero. Proof. apply (on_zero _ _ _ _ _ _ _ _ _ FT). Qed.
Lemma On_neg P : On P -> On (Neg P). Proof. apply (on_neg _ _ _ _ _ _ _ _ _ FT). Qed.
Lemma Add_neg P : On P -> Add P (Neg P) = Zero. Proof. apply (add_neg _ _ _ _ _ _ _ _ _ FT dec dd ii I2 D2 two). Qed.
Lemma On_mul n P : On P -> On (Mul n P). Proof. apply (on_nmul _ _ _ _ _ _ _ _ _ FT dec dd ii I2 D2 two). Qed.
Lemma Mul_plus a b P : On P -> Mul (a + b) P = Add (Mul a P) (Mul b P). Proof. apply (nmul_plus _ _ _ _ _ _ _ _ _ FT dec dd ii I2 D2 two). Qed.
Lemma Mul_times a b P : On P -> Mul (a * b) P = Mul a (Mul b P). Proof. apply (nmul_times _ _ _ _ _ _ _ _ _ FT dec dd ii I2 D2 two). Qed.
Lemma Mul_zero n : Mul n Zero = Zero. Proof. apply (nmul_zero _ _ _ _ _ _ _ _ _ FT). Qed.
Lemma Mul_neg n P : Mul n (Neg P) = Neg (Mul n P). Proof. apply (nmul_neg _ _ _ _ _ _ _ _ _ FT). Qed.
Lemma Mul_0 P : Mul 0 P = Zero. Proof. reflexivity. Qed.
Lemma Mul_1 P : Mul 1 P = P. Proof. apply Add_zero. Qed.

(** ** Field operations *)
Lemma pow_ok b e : 0 < e -> o (pow25519 b e) = pow' (o b) e.
Proof. intros H. destruct e as [|e|e]; try lia. unfold pow25519. rewrite pow_pos_ok, o_mod. reflexivity. Qed.
Lemma inv_ok x : o (inv25519 x) = inv' (o x).
Proof. unfold inv25519. rewrite pow_ok by reflexivity. reflexivity. Qed.

(** ** Points *)
Definition rep (q : Ed25519.point) (P : apoint) : Prop := let '(x, y, z, t) := q in Ext x y z t P.
Lemma rep_add p q P Q : On P -> On Q -> rep p P -> rep q Q -> rep (point_add p q) (Add P Q).
Proof.
  destruct p as [[[x1 y1] z1] t1], q as [[[x2 y2] z2] t2]. intros A B C D. unfold rep, Ext in *. cbn [point_add].
  pose proof (ext_add _ _ _ _ _ _ _ _ _ FT dec dd ii I2 D2 two _ _ _ _ _ _ _ _ _ _ A B C D) as E. cbv zeta in E.
  rewrite !o_red, !o_mul, !o_sub, !o_add, !o_red, !o_mul, !o_sub, !o_add, !o_red, !o_mul.
  change (o 2) with (o (1 + 1)). rewrite o_add. exact E.
Qed.
Lemma rep_mul_pos s p P : On P -> rep p P -> rep (point_mul_pos s p) (Mul (Pos.to_nat s) P).
Proof.
  intros A C. induction s as [s IH|s IH|]; cbn [point_mul_pos]; cbv zeta.
  - rewrite Pos2Nat.inj_xI. replace (S (2 * Pos.to_nat s)) with (Pos.to_nat s + Pos.to_nat s + 1)%nat by lia. rewrite !Mul_plus, Mul_1 by exact A. apply rep_add; try assumption.
    + apply On_add; apply On_mul, A.
    + apply rep_add; try apply On_mul, A; assumption.
  - rewrite Pos2Nat.inj_xO. replace (2 * Pos.to_nat s)%nat with (Pos.to_nat s + Pos.to_nat s)%nat by lia. rewrite Mul_plus by exact A. apply rep_add; try apply On_mul, A; assumption.
  - change (Pos.to_nat 1) with 1%nat. rewrite Mul_1. exact C.
Qed.
Lemma rep_neutral : rep neutral Zero.
Proof. unfold rep, neutral, Ext, Zero, pzero, ext. split; [intros H; apply o_eq in H; discriminate|]. split; [ring|]. split; ring. Qed.
Lemma rep_mul s p P : 0 <= s -> On P -> rep p P -> rep (point_mul s p) (Mul (Z.to_nat s) P).
Proof. intros S A C. destruct s as [|s|s]; [apply rep_neutral|apply rep_mul_pos; assumption|lia]. Qed.
Lemma rep_neg p P : rep p P -> rep (point_neg p) (Neg P).
Proof. destruct p as [[[x y] z] t]. unfold rep, Ext. cbn [point_neg]. intros C. rewrite !o_opp. apply (ext_neg _ _ _ _ _ _ _ _ _ FT). exact C. Qed.
Lemma rep_is_neutral p P : rep p P -> (is_neutral p = true <-> P = Zero).
Proof.
  destruct p as [[[x y] z] t]. unfold rep, Ext, is_neutral. intros C. rewrite andb_true_iff, !Z.eqb_eq.
  rewrite <- (ext_zero _ _ _ _ _ _ _ _ _ FT dec two _ _ _ _ _ C). change 0 with (0 mod P25519). rewrite <- !o_eq, o_sub. reflexivity.
Qed.
Definition B0 : apoint := let '(x, y, _, _) := BASE in (o x, o y).
Lemma rep_base : rep BASE B0.
Proof. unfold rep, B0, BASE, Ext. cbn [ext]. rewrite o_mod, o_mul. split; [intros H; apply o_eq in H; discriminate|]. split; [ring|]. split; ring. Qed.
Lemma on_base : On B0.
Proof. unfold On, B0, BASE, dd. cbn [on]. rewrite <- !o_mul, <- o_sub, <- o_add. apply o_eq. vm_compute. reflexivity. Qed.
Lemma base_nonzero : B0 <> Zero.
Proof. intros H. injection H as H _. vm_compute in H. discriminate. Qed.
Lemma order_base : Mul (Z.to_nat L25519) B0 = Zero.
Proof. apply (rep_is_neutral (point_mul L25519 BASE)); [apply rep_mul; [discriminate|exact on_base|exact rep_base]|]. vm_compute. reflexivity. Qed.
