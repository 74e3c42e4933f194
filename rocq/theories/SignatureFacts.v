(** * SignatureFacts: encodings of points, the order of the base point, and when signatures verify.  Proofs only. *)
From Coq Require Import String Ascii List ZArith NArith Znumtheory Bool Lia Field Field_theory Ring.
From Verif Require Import PyBase Rawsocket Encoding EncodingFacts Auth Sha2 Ed25519 SpecBase64 Base64Facts SpecSha2 Sha2Facts CryptoFacts PrimeFacts EdwardsFacts FieldFacts Ed25519Facts.
Import ListNotations.
Local Open Scope Z_scope.
Local Open Scope list_scope.
Add Field FF25519' : FT.

Lemma P_bounds : 2 ^ 254 < P25519 < 2 ^ 255. Proof. split; reflexivity. Qed.
Lemma L_bounds : 2 ^ 252 < L25519 < 2 ^ 253. Proof. split; reflexivity. Qed.
Lemma P_odd : P25519 mod 2 = 1. Proof. reflexivity. Qed.
Lemma P_eighth : P25519 = 8 * (P25519 / 8) + 5. Proof. reflexivity. Qed.

(** ** Octets *)
Lemma of_to_octets n x : of_octets (to_octets n x) = x mod 256 ^ Z.of_nat n.
Proof.
  rewrite <- value_octets, to_octets_bits, value_bits. f_equal. rewrite Nat2Z.inj_mul. change 256 with (2 ^ 8). rewrite <- Z.pow_mul_r by lia. reflexivity.
Qed.
Lemma of_le_octets_le n x : of_le_octets (le_octets n x) = x mod 256 ^ Z.of_nat n.
Proof. unfold of_le_octets, le_octets. rewrite rev_involutive. apply of_to_octets. Qed.
Lemma le_octets_length n x : length (le_octets n x) = n.
Proof. unfold le_octets. rewrite rev_length. apply to_octets_length. Qed.
Lemma of_le_octets_bound b : 0 <= of_le_octets b < 256 ^ Z.of_nat (length b).
Proof. unfold of_le_octets. rewrite <- (rev_length b). apply of_octets_bound. Qed.
Lemma to_of_octets l : to_octets (length l) (of_octets l) = l.
Proof.
  induction l as [|a l IH] using rev_ind; [reflexivity|]. rewrite app_length, Nat.add_comm. cbn [length Nat.add to_octets]. rewrite of_octets_snoc.
  pose proof (byte_bound a) as B. change (byte_Z a) with (number a) in B. replace (256 * of_octets l + number a) with (number a + of_octets l * 256) by lia.
  rewrite Z.div_add, Z.mod_add, Z.div_small, Z.mod_small, Z.add_0_l, IH by lia. f_equal. f_equal. apply byte_of_Z'.
Qed.
Lemma le_octets_of b : le_octets (length b) (of_le_octets b) = b.
Proof. unfold le_octets, of_le_octets. rewrite <- (rev_length b), to_of_octets. apply rev_involutive. Qed.

(** ** The encoding of a point *)
Definition code (P : FF * FF) : Z := num P25519 (snd P) + 2 ^ 255 * (num P25519 (fst P) mod 2).
Definition enc (P : FF * FF) : bytes := le_octets 32 (code P).
Lemma code_bound P : 0 <= code P < 2 ^ 256.
Proof.
  unfold code. pose proof (num_range P25519 prime_P (snd P)). pose proof (Z.mod_pos_bound (num P25519 (fst P)) 2 eq_refl). pose proof P_bounds. lia.
Qed.
Lemma o_small z : 0 <= z < P25519 -> num P25519 (o z) = z.
Proof. intros H. unfold o. rewrite num_of. apply Z.mod_small, H. Qed.
Lemma mod_num z a : o z = a -> z mod P25519 = num P25519 a.
Proof. intros <-. reflexivity. Qed.
Lemma encode_rep q P : rep q P -> encode_point q = enc P.
Proof.
  destruct q as [[[x y] z] t], P as [u v]. intros (N & X & Y & _). unfold encode_point, enc, code. cbn [fst snd].
  rewrite (mod_num (x * inv25519 z) u), (mod_num (y * inv25519 z) v); [reflexivity| |]; rewrite o_mul, inv_ok.
  - rewrite Y. field. exact N.
  - rewrite X. field. exact N.
Qed.
Lemma parity a : num P25519 a <> 0 -> num P25519 (-' a) mod 2 = 1 - num P25519 a mod 2.
Proof.
  intros N. pose proof (num_range P25519 prime_P a) as B. assert (E : num P25519 (-' a) = P25519 - num P25519 a).
  { rewrite <- (o_small (P25519 - num P25519 a)) by lia. f_equal. rewrite o_sub, o_num. rewrite <- (o_mod P25519), Z.mod_same by discriminate. ring. }
  rewrite E. pose proof P_odd as O. revert O. generalize P25519, (num P25519 a). intros. Z.div_mod_to_equations. lia.
Qed.
Lemma o_zero z : o z = o 0 <-> z mod P25519 = 0.
Proof. rewrite o_eq. reflexivity. Qed.
Lemma quarter x : x <> o 0 -> let c := pow' (x *' x) ((P25519 + 3) / 8) in c *' c = x *' x \/ c *' c = -' (x *' x).
Proof.
  intros N c. set (e := (P25519 + 3) / 8) in *. assert (X2 : x *' x = pow' x 2) by (change 2 with (1 + 1); rewrite fpow_add, !fpow_1 by lia; reflexivity).
  assert (E : c *' c = x *' x *' pow' x ((P25519 - 1) / 2)).
  { unfold c. rewrite X2. assert (0 <= e) by (apply Z.leb_le; reflexivity). rewrite <- fpow_add, <- fpow_mul, <- fpow_add by (try lia; apply Z.leb_le; reflexivity). reflexivity. }
  destruct (half_power P25519 prime_P x N P_odd) as [H|H]; rewrite H in E; rewrite E; [left|right]; fold (o 1); fold (o (-1)); [ring|]. change (-1) with (- (1)). rewrite o_opp. ring.
Qed.
Lemma decode_enc P : On P -> exists q, decode_point (enc P) = Some q /\ rep q P.
Proof.
  destruct P as [x y]. intros HP. pose proof (x_squared _ _ _ _ _ _ _ _ _ FT dd ii I2 D2 x y HP) as X2.
  unfold decode_point, enc. rewrite of_le_octets_le. change (256 ^ Z.of_nat 32) with (2 ^ 256). rewrite (Z.mod_small (code (x, y))) by apply code_bound. unfold code. cbn [fst snd].
  pose proof (num_range P25519 prime_P y) as BY. pose proof (num_range P25519 prime_P x) as BX. pose proof P_bounds as PB. pose proof (Z.mod_pos_bound (num P25519 x) 2 eq_refl) as BS.
  set (s := num P25519 x mod 2) in *. set (ny := num P25519 y) in *.
  replace ((ny + 2 ^ 255 * s) mod 2 ^ 255) with ny by (rewrite Z.mul_comm, Z.mod_add by discriminate; symmetry; apply Z.mod_small; lia).
  replace ((ny + 2 ^ 255 * s) / 2 ^ 255) with s by (rewrite Z.mul_comm, Z.div_add by discriminate; rewrite Z.div_small by lia; lia).
  cbv zeta. destruct (Z.leb_spec P25519 ny) as [K|_]; [lia|].
  assert (OY : o ny = y) by apply o_num.
  assert (E2 : ((ny * ny - 1) * inv25519 (D25519 * (ny * ny) + 1)) mod P25519 = num P25519 (x *' x)).
  { apply mod_num. rewrite o_mul, inv_ok, o_add, o_sub, !o_mul, OY. exact X2. }
  rewrite E2. set (x2 := num P25519 (x *' x)). assert (OX2 : o x2 = x *' x) by apply o_num.
  assert (Zx : num P25519 x = 0 <-> x = o 0). { split; [intros H; rewrite <- (o_num x), H; reflexivity|intros ->; apply o_small; lia]. }
  destruct (Z.eqb_spec x2 0) as [Q|Q].
  - assert (X0 : x = o 0).
    { assert (M : x *' x = o 0) by (rewrite <- OX2, Q; reflexivity). apply (mul_zero _ _ _ _ _ _ _ _ _ FT dec) in M. tauto. }
    assert (S0 : s = 0) by (unfold s; rewrite (proj2 Zx X0); reflexivity). rewrite S0. cbn [Z.eqb]. eexists. split; [reflexivity|].
    unfold rep, Ext. cbn [ext]. rewrite X0, OY. split; [apply (one_zero _ _ _ _ _ _ _ _ _ FT)|]. repeat split; ring.
  - assert (NX : x <> o 0). { intros ->. apply Q. unfold x2. replace (o 0 *' o 0) with (o 0) by ring. apply o_small. lia. }
    assert (N0 : num P25519 x <> 0) by (intros H; apply NX, Zx, H).
    set (c := pow25519 x2 ((P25519 + 3) / 8)). assert (OC : o c = pow' (x *' x) ((P25519 + 3) / 8)) by (unfold c; rewrite pow_ok by reflexivity; rewrite OX2; reflexivity).
    set (xx := (if (c * c - x2) mod P25519 =? 0 then c else c * SQRT_M1) mod P25519).
    assert (HX : o xx *' o xx = x *' x).
    { unfold xx. destruct (Z.eqb_spec ((c * c - x2) mod P25519) 0) as [T|T].
      - rewrite o_mod. apply o_zero in T. rewrite o_sub, o_mul, OX2 in T. apply (sub_eq _ _ _ _ _ _ _ _ _ FT) in T. exact T.
      - rewrite o_mod, o_mul. fold ii. destruct (quarter x NX) as [U|U]; rewrite <- OC in U.
        + exfalso. apply T, o_zero. rewrite o_sub, o_mul, OX2, U. ring.
        + transitivity (o c *' o c *' (ii *' ii)); [ring|]. rewrite I2, U. ring. }
    assert (BXX : 0 <= xx < P25519) by (apply Z.mod_pos_bound; reflexivity).
    assert (T : (xx * xx - x2) mod P25519 =? 0 = true). { apply Z.eqb_eq, o_zero. rewrite o_sub, o_mul, HX, OX2. ring. }
    rewrite T. cbn [negb]. set (x' := if xx mod 2 =? s then xx else P25519 - xx).
    assert (OX' : o x' = x).
    { pose proof (square_roots _ _ _ _ _ _ _ _ _ FT dec _ _ HX) as [R|R].
      - assert (xx = num P25519 x) by (rewrite <- R; symmetry; apply o_small, BXX). unfold x'. replace (xx mod 2) with s by (unfold s; congruence). rewrite Z.eqb_refl. exact R.
      - assert (V : xx = num P25519 (-' x)) by (rewrite <- R; symmetry; apply o_small, BXX). unfold x'. rewrite V, parity by exact N0. fold s. destruct (Z.eqb_spec (1 - s) s) as [W|W]; [lia|].
        rewrite o_sub, o_num. rewrite <- (o_mod P25519), Z.mod_same by discriminate. ring. }
    eexists. split; [reflexivity|]. unfold rep, Ext. cbn [ext]. rewrite o_mod, o_mul, OX', OY. split; [apply (one_zero _ _ _ _ _ _ _ _ _ FT)|]. repeat split; ring.
Qed.

(** ** The order of the base point *)
Lemma Mul_mod z : 0 <= z -> Mul (Z.to_nat (z mod L25519)) B0 = Mul (Z.to_nat z) B0.
Proof.
  intros H. pose proof L_bounds as LB. pose proof (Z.div_mod z L25519 ltac:(lia)) as E. pose proof (Z.mod_pos_bound z L25519 ltac:(lia)) as B. pose proof (Z.div_pos z L25519 H ltac:(lia)) as Q.
  replace (Z.to_nat z) with (Z.to_nat (z / L25519) * Z.to_nat L25519 + Z.to_nat (z mod L25519))%nat by (rewrite E at 3; rewrite Z2Nat.inj_add, Z2Nat.inj_mul by lia; lia).
  rewrite Mul_plus, Mul_times, order_base, Mul_zero by exact on_base. rewrite Add_comm, Add_zero. reflexivity.
Qed.
Lemma Mul_order z : 0 <= z -> (Mul (Z.to_nat z) B0 = Zero <-> z mod L25519 = 0).
Proof.
  intros H. pose proof L_bounds as LB. rewrite <- (Mul_mod z H). pose proof (Z.mod_pos_bound z L25519 ltac:(lia)) as B. set (r := z mod L25519) in *. clearbody r. clear z H. split.
  - intros M. destruct (Z.eq_dec r 0) as [E|N]; [exact E|]. exfalso. apply base_nonzero.
    assert (G : rel_prime r L25519) by (apply rel_prime_le_prime; [exact prime_L|lia]). destruct (rel_prime_bezout _ _ G) as [u v E].
    set (k := u mod L25519). pose proof (Z.mod_pos_bound u L25519 ltac:(lia)) as BK. fold k in BK.
    assert (K : (k * r) mod L25519 = 1). { unfold k. rewrite Z.mul_mod_idemp_l by lia. replace (u * r) with (1 + (- v) * L25519) by lia. rewrite Z.mod_add by lia. apply Z.mod_small. lia. }
    rewrite <- (Mul_1 B0). change 1%nat with (Z.to_nat 1). rewrite <- K, Mul_mod by lia. rewrite Z2Nat.inj_mul, Mul_times, M by (lia || exact on_base). apply Mul_zero.
  - intros ->. apply Mul_0.
Qed.
Lemma small_order_mul q z : 0 <= z -> rep q (Mul (Z.to_nat z) B0) -> small_order q = (z mod L25519 =? 0).
Proof.
  intros H R. apply eq_true_iff_eq. unfold small_order. pose proof (On_mul (Z.to_nat z) B0 on_base) as O. rewrite (rep_is_neutral _ (Mul (Z.to_nat 8) (Mul (Z.to_nat z) B0))) by (apply rep_mul; [lia|exact O|exact R]).
  rewrite <- Mul_times by exact on_base. rewrite <- Z2Nat.inj_mul by lia. rewrite Mul_order, Z.eqb_eq by lia. pose proof L_bounds as LB. split; intros E.
  - apply Z.mod_divide in E; [|lia]. apply Gauss in E.
    + apply Z.mod_divide; [lia|exact E].
    + apply rel_prime_sym, rel_prime_le_prime; [exact prime_L|lia].
  - rewrite <- Z.mul_mod_idemp_r, E by lia. reflexivity.
Qed.

(** ** Signatures *)
Lemma clamp_bound h : 2 ^ 254 <= clamp h < 2 ^ 255.
Proof. unfold clamp. pose proof (Z.mod_pos_bound (of_le_octets (firstn 32 h)) (2 ^ 254) eq_refl). generalize dependent (of_le_octets (firstn 32 h) mod 2 ^ 254). intros r H. Z.div_mod_to_equations. lia. Qed.
Lemma clamp_eight h : clamp h mod 8 = 0.
Proof. unfold clamp. generalize (of_le_octets (firstn 32 h) mod 2 ^ 254). intros r. change (2 ^ 254) with (2 ^ 251 * 8). rewrite <- Z.mul_add_distr_r. apply Z.mod_mul. discriminate. Qed.
Lemma clamp_order h : clamp h mod L25519 <> 0.
Proof.
  intros E. pose proof (clamp_bound h) as B. pose proof (clamp_eight h) as E8. pose proof L_bounds as LB. set (a := clamp h) in *. clearbody a.
  apply Z.mod_divide in E; [|lia]. destruct E as [k E]. assert (0 < k < 8) by nia. subst a.
  assert (K : k = 1 \/ k = 2 \/ k = 3 \/ k = 4 \/ k = 5 \/ k = 6 \/ k = 7) by lia. clear - E8 K. destruct K as [->|[->|[->|[->|[->|[->| ->]]]]]]; vm_compute in E8; discriminate.
Qed.
Lemma hash_scalar_bound b : 0 <= hash_scalar b < L25519.
Proof. apply Z.mod_pos_bound. reflexivity. Qed.
Lemma encode_mul z : 0 <= z -> encode_point (point_mul z BASE) = enc (Mul (Z.to_nat z) B0).
Proof. intros H. apply encode_rep. apply rep_mul; [exact H|exact on_base|exact rep_base]. Qed.

(** Decoding is the inverse of encoding. *)
Lemma decode_some b q : length b = 32%nat -> decode_point b = Some q -> exists P, On P /\ rep q P /\ enc P = b.
Proof.
  intros LB H. pose proof (of_le_octets_bound b) as BN. rewrite LB in BN. change (256 ^ Z.of_nat 32) with (2 ^ 256) in BN. unfold decode_point in H. cbv zeta in H. set (n := of_le_octets b) in *.
  pose proof (Z.mod_pos_bound n (2 ^ 255) eq_refl) as By. pose proof (Z.div_mod n (2 ^ 255) ltac:(discriminate)) as En. set (y := n mod 2 ^ 255) in *. set (s := n / 2 ^ 255) in *.
  assert (Bs : s = 0 \/ s = 1) by (clear - BN By En; clearbody n y s; lia). revert H. destruct (Z.leb_spec P25519 y) as [K|Y]; [discriminate|].
  assert (C : forall x, 0 <= x < P25519 -> x mod 2 = s -> enc (o x, o y) = b).
  { intros x X S. unfold enc, code. cbn [fst snd]. rewrite !o_small by lia. rewrite S. replace (y + 2 ^ 255 * s) with n by (clear - En; clearbody n y s; lia). rewrite <- LB. apply le_octets_of. }
  assert (OnC : forall x, o x *' o x = (o y *' o y -' o 1) *' inv' (dd *' (o y *' o y) +' o 1) -> On (o x, o y)).
  { intros x E. pose proof (denominator _ _ _ _ _ _ _ _ _ FT dd ii I2 D2 (o y)) as N. unfold On. cbn [on]. rewrite E. field. exact N. }
  set (x2 := ((y * y - 1) * inv25519 (D25519 * (y * y) + 1)) mod P25519) in *.
  assert (OX2 : o x2 = (o y *' o y -' o 1) *' inv' (dd *' (o y *' o y) +' o 1)) by (unfold x2; rewrite o_mod, o_mul, inv_ok, o_add, o_sub, !o_mul; reflexivity).
  assert (B2 : 0 <= x2 < P25519) by (apply Z.mod_pos_bound; reflexivity).
  intros H. destruct (Z.eqb_spec x2 0) as [Q|Q].
  - destruct (Z.eqb_spec s 1) as [S|S]; [discriminate|]. injection H as <-. exists (o 0, o y). split; [apply OnC; rewrite <- OX2, Q; ring|]. split.
    + unfold rep, Ext. cbn [ext]. split; [apply (one_zero _ _ _ _ _ _ _ _ _ FT)|]. repeat split; ring.
    + apply C; [split; [lia|reflexivity]|]. change (0 mod 2) with 0. lia.
  - set (x := (if (pow25519 x2 ((P25519 + 3) / 8) * pow25519 x2 ((P25519 + 3) / 8) - x2) mod P25519 =? 0 then pow25519 x2 ((P25519 + 3) / 8) else pow25519 x2 ((P25519 + 3) / 8) * SQRT_M1) mod P25519) in *.
    assert (BX : 0 <= x < P25519) by (apply Z.mod_pos_bound; reflexivity). clearbody x.
    destruct (Z.eqb_spec ((x * x - x2) mod P25519) 0) as [T|T]; [|discriminate]. cbn [negb] in H. apply o_zero in T. rewrite o_sub, o_mul in T. apply (sub_eq _ _ _ _ _ _ _ _ _ FT) in T. rewrite OX2 in T.
    assert (X0 : x <> 0). { intros ->. apply Q. replace x2 with (x2 mod P25519) by (apply Z.mod_small, B2). apply o_zero. rewrite OX2, <- T. ring. }
    set (x' := if x mod 2 =? s then x else P25519 - x) in *. injection H as <-.
    assert (BX' : 0 <= x' < P25519 /\ x' mod 2 = s /\ o x' *' o x' = o x *' o x).
    { unfold x'. destruct (Z.eqb_spec (x mod 2) s) as [V|V]; [auto|]. split; [lia|]. split.
      - pose proof P_odd as O. clear - Bs V O. revert Bs V O. generalize P25519. intros. Z.div_mod_to_equations. lia.
      - rewrite o_sub. rewrite <- (o_mod P25519), Z.mod_same by discriminate. ring. }
    destruct BX' as (X1 & X3 & X4). exists (o x', o y). split; [apply OnC; rewrite X4; exact T|]. split; [|apply C; assumption].
    unfold rep, Ext. cbn [ext]. rewrite o_mod, o_mul. split; [apply (one_zero _ _ _ _ _ _ _ _ _ FT)|]. repeat split; ring.
Qed.
Lemma enc_inj P Q : On P -> On Q -> enc P = enc Q -> P = Q.
Proof.
  destruct P as [x y], Q as [u v]. intros A B H. apply (f_equal of_le_octets) in H. unfold enc in H. rewrite !of_le_octets_le in H. change (256 ^ Z.of_nat 32) with (2 ^ 256) in H. rewrite !Z.mod_small in H by apply code_bound. unfold code in H. cbn [fst snd] in H.
  pose proof (num_range P25519 prime_P y). pose proof (num_range P25519 prime_P v). pose proof P_bounds. pose proof (Z.mod_pos_bound (num P25519 x) 2 eq_refl). pose proof (Z.mod_pos_bound (num P25519 u) 2 eq_refl).
  assert (E : y = v) by (apply F_eq; lia). subst v. assert (S : num P25519 x mod 2 = num P25519 u mod 2) by lia. f_equal.
  pose proof (x_squared _ _ _ _ _ _ _ _ _ FT dd ii I2 D2 x y A) as X. rewrite (x_squared _ _ _ _ _ _ _ _ _ FT dd ii I2 D2 u y B) in X. symmetry in X.
  pose proof (square_roots _ _ _ _ _ _ _ _ _ FT dec _ _ X) as [R|R]; [exact R|]. destruct (Z.eq_dec (num P25519 u) 0) as [Z0|N0].
  - rewrite R. assert (u = o 0) by (rewrite <- (o_num u), Z0; reflexivity). subst u. ring.
  - exfalso. rewrite R, parity in S by exact N0. lia.
Qed.

Lemma move R T S : On R -> On T -> On S -> Add S (Neg T) = R <-> Add R T = S.
Proof.
  intros A B C. split; intros <-.
  - rewrite <- Add_assoc by (try apply On_neg; assumption). rewrite (Add_comm (Neg T)), Add_neg by exact B. apply Add_zero.
  - rewrite <- Add_assoc by (try apply On_neg; assumption). rewrite Add_neg by exact B. apply Add_zero.
Qed.
Lemma Mul_inj u v : 0 <= u < L25519 -> 0 <= v < L25519 -> Mul (Z.to_nat u) B0 = Mul (Z.to_nat v) B0 -> u = v.
Proof.
  assert (W : forall u v, 0 <= u <= v -> v < L25519 -> Mul (Z.to_nat u) B0 = Mul (Z.to_nat v) B0 -> u = v).
  { clear. intros u v H B E. replace (Z.to_nat v) with (Z.to_nat u + Z.to_nat (v - u))%nat in E by lia. rewrite Mul_plus in E by exact on_base.
    assert (OU : On (Mul (Z.to_nat u) B0)) by apply On_mul, on_base. assert (OV : On (Mul (Z.to_nat (v - u)) B0)) by apply On_mul, on_base. symmetry in E. rewrite Add_comm in E. apply move in E; [|assumption..]. rewrite Add_neg in E by exact OU.
    symmetry in E. apply Mul_order in E; [|lia]. rewrite Z.mod_small in E by lia. lia. }
  intros A B E. destruct (Z.le_ge_cases u v); [apply W; [lia|lia|exact E]|symmetry; apply W; [lia|lia|symmetry; exact E]].
Qed.
(** What [ed25519_verify] accepts, on the points of the curve. *)
Definition accepts (pk m sig : bytes) : Prop :=
  exists A R, On A /\ On R /\ pk = enc A /\ firstn 32 sig = enc R /\ of_le_octets (skipn 32 sig) < L25519 /\ Mul 8 A <> Zero /\ Mul 8 R <> Zero /\
    Add R (Mul (Z.to_nat (hash_scalar (enc R ++ pk ++ m))) A) = Mul (Z.to_nat (of_le_octets (skipn 32 sig))) B0.
Lemma small_order_iff q P : On P -> rep q P -> small_order q = true <-> Mul 8 P = Zero.
Proof. intros O R. unfold small_order. rewrite (rep_is_neutral _ (Mul (Z.to_nat 8) P)) by (apply rep_mul; [lia|exact O|exact R]). reflexivity. Qed.
Theorem verify_accepts pk m sig : length pk = 32%nat -> length sig = 64%nat -> ed25519_verify pk m sig = true <-> accepts pk m sig.
Proof.
  intros LP LS. assert (LR : length (firstn 32 sig) = 32%nat) by (rewrite firstn_length; lia). unfold ed25519_verify, accepts. cbv zeta. set (Rb := firstn 32 sig) in *. set (s := of_le_octets (skipn 32 sig)).
  assert (S0 : 0 <= s) by apply of_le_octets_bound. clearbody s.
  assert (MAIN : forall A R qa qr, On A -> On R -> rep qa A -> rep qr R -> enc A = pk -> enc R = Rb ->
     ((if negb (s <? L25519) || small_order qr || small_order qa then false
       else if list_eq_dec ascii_dec Rb (encode_point (point_add (point_mul s BASE) (point_mul (hash_scalar (Rb ++ pk ++ m)) (point_neg qa)))) then true else false) = true <->
      s < L25519 /\ Mul 8 A <> Zero /\ Mul 8 R <> Zero /\ Add R (Mul (Z.to_nat (hash_scalar (enc R ++ pk ++ m))) A) = Mul (Z.to_nat s) B0)).
  { intros A R qa qr OA OR RA RR EA ER. rewrite <- (small_order_iff qa A OA RA), <- (small_order_iff qr R OR RR). rewrite ER. set (k := hash_scalar (Rb ++ pk ++ m)). assert (K0 : 0 <= k) by apply hash_scalar_bound. clearbody k.
    rewrite (encode_rep _ (Add (Mul (Z.to_nat s) B0) (Mul (Z.to_nat k) (Neg A)))).
    2:{ apply rep_add; try apply On_mul; try apply On_neg; try exact OA; try exact on_base.
        - apply rep_mul; [exact S0|exact on_base|exact rep_base].
        - apply rep_mul; [exact K0|apply On_neg, OA|apply rep_neg, RA]. }
    rewrite Mul_neg. assert (OT : On (Mul (Z.to_nat k) A)) by apply On_mul, OA. assert (OS : On (Mul (Z.to_nat s) B0)) by apply On_mul, on_base.
    set (T := Mul (Z.to_nat k) A) in *. set (S := Mul (Z.to_nat s) B0) in *. rewrite <- (move R T S OR OT OS).
    destruct (Z.ltb_spec s L25519) as [V|V]; cbn [negb orb]; [|split; [discriminate|intros (V' & _); lia]].
    destruct (small_order qr), (small_order qa); cbn [orb]; try (split; [discriminate|intros (_ & U1 & U2 & _); congruence]).
    destruct (list_eq_dec ascii_dec Rb (enc (Add S (Neg T)))) as [W|W].
    - split; [intros _|reflexivity]. repeat split; try discriminate; [exact V|]. symmetry. apply enc_inj; [exact OR|apply On_add; [exact OS|apply On_neg, OT]|congruence].
    - split; [discriminate|]. intros (_ & _ & _ & U). exfalso. apply W. rewrite U. symmetry. exact ER. }
  split.
  - intros H. destruct (decode_point Rb) as [qr|] eqn:DR; [|discriminate]. destruct (decode_point pk) as [qa|] eqn:DA; [|discriminate].
    destruct (decode_some _ _ LR DR) as (R & OR & RR & ER). destruct (decode_some _ _ LP DA) as (A & OA & RA & EA).
    apply (MAIN A R qa qr OA OR RA RR EA ER) in H. exists A, R. destruct H as (H1 & H2 & H3 & H4). repeat split; auto.
  - intros (A & R & OA & OR & EA & ER & H1 & H2 & H3 & H4). symmetry in EA, ER. destruct (decode_enc R OR) as (qr & DR & RR). destruct (decode_enc A OA) as (qa & DA & RA). rewrite ER in DR. rewrite EA in DA. rewrite DR, DA.
    apply (MAIN A R qa qr OA OR RA RR EA ER). auto.
Qed.

(** ** Under which keys and for which messages a signature verifies *)
Theorem verify_cross seed m seed' m' :
  ed25519_verify (ed25519_public seed') m' (ed25519_sign seed m) = true <->
  hash_scalar (skipn 32 (digest SHA512 seed) ++ m) <> 0 /\
  (hash_scalar (firstn 32 (ed25519_sign seed m) ++ ed25519_public seed' ++ m') * clamp (digest SHA512 seed')) mod L25519 =
  (hash_scalar (firstn 32 (ed25519_sign seed m) ++ ed25519_public seed ++ m) * clamp (digest SHA512 seed)) mod L25519.
Proof.
  rewrite verify_accepts by (apply ed_public_length || apply ed_sign_length). unfold accepts, ed25519_public, ed25519_sign. cbv zeta.
  pose proof (clamp_bound (digest SHA512 seed)) as BA. set (a := clamp (digest SHA512 seed)) in *. clearbody a.
  pose proof (clamp_bound (digest SHA512 seed')) as BA'. pose proof (clamp_order (digest SHA512 seed')) as NA'. set (a' := clamp (digest SHA512 seed')) in *. clearbody a'.
  set (r := hash_scalar (skipn 32 (digest SHA512 seed) ++ m)). assert (BR : 0 <= r < L25519) by apply hash_scalar_bound. clearbody r. pose proof L_bounds as LB.
  rewrite !encode_mul by lia. set (R := Mul (Z.to_nat r) B0). set (A := Mul (Z.to_nat a) B0). set (A' := Mul (Z.to_nat a') B0).
  assert (OR : On R) by apply On_mul, on_base. assert (OA : On A) by apply On_mul, on_base. assert (OA' : On A') by apply On_mul, on_base.
  set (k := hash_scalar (enc R ++ enc A ++ m)). assert (BK : 0 <= k < L25519) by apply hash_scalar_bound. set (s := (r + k * a) mod L25519). assert (BS : 0 <= s < L25519) by (apply Z.mod_pos_bound; lia).
  assert (LR : length (enc R) = 32%nat) by apply le_octets_length.
  assert (F : firstn 32 (enc R ++ le_octets 32 s) = enc R) by (rewrite <- LR at 1; rewrite firstn_app, Nat.sub_diag, firstn_all; apply app_nil_r).
  assert (G : of_le_octets (skipn 32 (enc R ++ le_octets 32 s)) = s).
  { rewrite <- LR at 1. rewrite skipn_app, Nat.sub_diag, skipn_all. cbn [app skipn]. rewrite of_le_octets_le. apply Z.mod_small. change (256 ^ Z.of_nat 32) with (2 ^ 256). lia. }
  rewrite F, G. clear F G. fold k. set (k' := hash_scalar (enc R ++ enc A' ++ m')). assert (BK' : 0 <= k' < L25519) by apply hash_scalar_bound.
  assert (SM : forall z, 0 <= z -> Mul 8 (Mul (Z.to_nat z) B0) = Zero <-> z mod L25519 = 0).
  { intros z H. rewrite <- Z.eqb_eq. rewrite <- (small_order_mul (point_mul z BASE) z H) by (apply rep_mul; [exact H|exact on_base|exact rep_base]). symmetry. apply small_order_iff; [apply On_mul, on_base|apply rep_mul; [exact H|exact on_base|exact rep_base]]. }
  assert (EQ : Add R (Mul (Z.to_nat k') A') = Mul (Z.to_nat s) B0 <-> (k' * a') mod L25519 = (k * a) mod L25519).
  { assert (KA : 0 <= k * a) by (apply Z.mul_nonneg_nonneg; lia). assert (KA' : 0 <= k' * a') by (apply Z.mul_nonneg_nonneg; lia).
    unfold s. rewrite Mul_mod by lia. unfold R, A'. rewrite <- Mul_times, <- Z2Nat.inj_mul by (exact on_base || lia). rewrite Z2Nat.inj_add, Mul_plus by (exact on_base || lia).
    rewrite <- (Mul_mod (k' * a') KA'), <- (Mul_mod (k * a) KA). pose proof (Z.mod_pos_bound (k' * a') L25519 ltac:(lia)) as B1. pose proof (Z.mod_pos_bound (k * a) L25519 ltac:(lia)) as B2.
    set (u := (k' * a') mod L25519) in *. set (v := (k * a) mod L25519) in *. clearbody u v. split; [|intros ->; reflexivity]. intros E. apply Mul_inj; [exact B1|exact B2|].
    set (U := Mul (Z.to_nat u) B0) in *. set (V := Mul (Z.to_nat v) B0) in *. assert (OU : On U) by apply On_mul, on_base. assert (OV : On V) by apply On_mul, on_base.
    fold R in E. rewrite !(Add_comm R) in E. rewrite <- (move _ R _ OU OR (On_add _ _ OV OR)) in E. rewrite <- E. rewrite <- Add_assoc by (try apply On_neg; assumption). rewrite Add_neg by exact OR. rewrite Add_zero. reflexivity. }
  split.
  - intros (A'' & R' & OA'' & OR' & EA & ER & _ & _ & H & EE). apply enc_inj in ER; [|assumption|assumption]. apply enc_inj in EA; [|assumption|assumption]. subst R' A''. fold k' in EE. split.
    + intros E. apply H. apply SM; [lia|]. rewrite E. reflexivity.
    + apply EQ, EE.
  - intros (N & E). exists A', R. repeat split; try assumption; try lia.
    + intros E'. apply SM in E'; [contradiction|lia].
    + intros E'. apply SM in E'; [|lia]. rewrite Z.mod_small in E' by lia. contradiction.
    + fold k'. apply EQ, E.
Qed.
Theorem verify_sign seed m :
  ed25519_verify (ed25519_public seed) m (ed25519_sign seed m) = negb (hash_scalar (skipn 32 (digest SHA512 seed) ++ m) =? 0).
Proof. apply eq_true_iff_eq. rewrite verify_cross, negb_true_iff, Z.eqb_neq. tauto. Qed.
(** The second half of a signature is determined by the rest. *)
Theorem verify_unique pk m R s t : length pk = 32%nat -> length R = 32%nat -> length s = 32%nat -> length t = 32%nat ->
  ed25519_verify pk m (R ++ s) = true -> ed25519_verify pk m (R ++ t) = true -> s = t.
Proof.
  intros LP LR Ls Lt Hs Ht.
  assert (F : forall x, firstn 32 (R ++ x) = R) by (intros x; rewrite <- LR; rewrite firstn_app, Nat.sub_diag, firstn_all; apply app_nil_r).
  assert (G : forall x, skipn 32 (R ++ x) = x) by (intros x; rewrite <- LR; rewrite skipn_app, Nat.sub_diag, skipn_all; reflexivity).
  apply verify_accepts in Hs; [|exact LP|rewrite app_length; lia]. apply verify_accepts in Ht; [|exact LP|rewrite app_length; lia]. unfold accepts in Hs, Ht. rewrite F, G in Hs, Ht.
  destruct Hs as (A & P & OA & OP & EA & EP & Bs & _ & _ & Es). destruct Ht as (A' & P' & OA' & OP' & EA' & EP' & Bt & _ & _ & Et).
  assert (A' = A) by (apply enc_inj; congruence). assert (P' = P) by (apply enc_inj; congruence). subst A' P'. rewrite Es in Et. clear Es.
  pose proof (of_le_octets_bound s) as [S0 _]. pose proof (of_le_octets_bound t) as [T0 _].
  rewrite <- (le_octets_of s), <- (le_octets_of t), Ls, Lt. f_equal. set (u := of_le_octets s) in *. set (v := of_le_octets t) in *. clearbody u v.
  clear - Et S0 T0 Bs Bt. pose proof L_bounds as LB.
  apply Mul_inj; auto.
Qed.
