(** * Rfc8032Facts: Ed25519.v computes what SpecEd25519.v says.  Proofs only. *)
From Coq Require Import String Ascii List ZArith NArith Znumtheory Bool Lia Field Field_theory Ring.
From Verif Require Import PyBase Rawsocket Encoding EncodingFacts Auth Sha2 Ed25519 SpecBase64 Base64Facts SpecSha2 Sha2Facts CryptoFacts CraFacts PrimeFacts EdwardsFacts FieldFacts Ed25519Facts SignatureFacts SpecEd25519.
Import ListNotations.
Local Open Scope Z_scope.
Local Open Scope list_scope.
Add Field FF25519'' : FT.

Lemma same_iff a b : same a b <-> o a = o b.
Proof. symmetry. apply o_eq. Qed.
Lemma little_is b : little b = of_le_octets b.
Proof.
  unfold of_le_octets. induction b as [|a b IH]; [reflexivity|]. cbn [little fold_right rev]. rewrite of_octets_snoc, <- IH. unfold little. lia.
Qed.

(** ** Points *)
Definition back (P : FF * FF) : Z * Z := (num P25519 (fst P), num P25519 (snd P)).
Lemma back_inj P Q : back P = back Q -> P = Q.
Proof. destruct P, Q. unfold back. cbn [fst snd]. intros H. apply pair_equal_spec in H. destruct H as [A B]. apply F_eq in A, B. subst. reflexivity. Qed.
Lemma back_range x y : 0 <= x < modulus -> 0 <= y < modulus -> (x, y) = back (o x, o y).
Proof. intros A B. unfold back. cbn [fst snd]. rewrite !o_small by assumption. reflexivity. Qed.
Lemma den_ne : o 121666 <> o 0. Proof. intros H. apply o_eq in H. discriminate. Qed.
Lemma dd_is : o 121666 *' dd = -' o 121665.
Proof. unfold dd. rewrite <- o_mul, <- o_opp. apply o_eq. vm_compute. reflexivity. Qed.
Lemma cancel a b : o 121666 *' a = o 121666 *' b -> a = b.
Proof. intros H. transitivity (inv' (o 121666) *' (o 121666 *' a)); [field; exact den_ne|]. rewrite H. field. exact den_ne. Qed.
Lemma cancel_ne c a b : c <> o 0 -> a *' c = b *' c -> a = b.
Proof. intros N H. transitivity (a *' c *' inv' c); [field; exact N|]. rewrite H. field. exact N. Qed.
Lemma on_curve_back P : on_curve (back P) <-> On P.
Proof.
  destruct P as [x y]. unfold on_curve, back. cbn [fst snd]. pose proof (num_range P25519 prime_P x) as X. pose proof (num_range P25519 prime_P y) as Y. rewrite same_iff, o_sub, !o_mul, o_sub, !o_mul, !o_num. unfold On. cbn [on].
  assert (E : o 121666 -' o 121665 *' (x *' x *' (y *' y)) = o 121666 *' (o 1 +' dd *' (x *' x) *' (y *' y))).
  { transitivity (o 121666 +' (-' o 121665) *' (x *' x *' (y *' y))); [ring|]. rewrite <- dd_is. ring. }
  rewrite E. split.
  - intros (_ & _ & H). apply cancel, H.
  - intros ->. repeat split; (apply X || apply Y).
Qed.
Lemma on_curve_is Q : on_curve Q <-> exists P, On P /\ Q = back P.
Proof.
  split; [|intros (P & H & ->); apply on_curve_back, H]. destruct Q as [x y]. intros H. pose proof H as (X & Y & _). exists (o x, o y). rewrite (back_range x y X Y) in H. split; [apply on_curve_back, H|apply back_range; assumption].
Qed.
Lemma sum_is P Q R : On P -> On Q -> sum (back P) (back Q) R <-> R = back (Add P Q).
Proof.
  intros A B. destruct P as [x1 y1], Q as [x2 y2]. pose proof (plus_ne _ _ _ _ _ _ _ _ _ FT dec dd ii I2 D2 two _ _ _ _ A B) as U. pose proof (minus_ne _ _ _ _ _ _ _ _ _ FT dec dd ii I2 D2 two _ _ _ _ A B) as V.
  destruct R as [x3 y3]. unfold sum, back. cbn [fst snd]. rewrite !same_iff, !o_mul, !o_sub, !o_add, !o_mul, !o_num.
  replace (o 121666 -' o 121665 *' (x1 *' x2 *' y1 *' y2)) with (o 121666 *' (o 1 +' dd *' x1 *' x2 *' y1 *' y2)) by (transitivity (o 121666 +' (o 121666 *' dd) *' (x1 *' x2 *' y1 *' y2)); [ring|rewrite dd_is; ring]).
  replace (o 121666 +' o 121665 *' (x1 *' x2 *' y1 *' y2)) with (o 121666 *' (o 1 -' dd *' x1 *' x2 *' y1 *' y2)) by (transitivity (o 121666 -' (o 121666 *' dd) *' (x1 *' x2 *' y1 *' y2)); [ring|rewrite dd_is; ring]).
  unfold Add, padd. split.
  - intros (X & Y & HX & HY). rewrite (back_range x3 y3 X Y). unfold back. cbn [fst snd].
    assert (EX : o x3 = fdiv P25519 prime_P (x1 *' y2 +' x2 *' y1) (o 1 +' dd *' x1 *' x2 *' y1 *' y2)).
    { apply (cancel_ne (o 1 +' dd *' x1 *' x2 *' y1 *' y2) _ _ U). apply cancel. transitivity (o x3 *' (o 121666 *' (o 1 +' dd *' x1 *' x2 *' y1 *' y2))); [ring|]. rewrite HX. field. exact U. }
    assert (EY : o y3 = fdiv P25519 prime_P (y1 *' y2 +' x1 *' x2) (o 1 -' dd *' x1 *' x2 *' y1 *' y2)).
    { apply (cancel_ne (o 1 -' dd *' x1 *' x2 *' y1 *' y2) _ _ V). apply cancel. transitivity (o y3 *' (o 121666 *' (o 1 -' dd *' x1 *' x2 *' y1 *' y2))); [ring|]. rewrite HY. field. exact V. }
    rewrite EX, EY. reflexivity.
  - intros E. apply pair_equal_spec in E. destruct E as [-> ->]. cbn [fst snd]. rewrite !o_num. split; [apply (num_range P25519 prime_P)|]. split; [apply (num_range P25519 prime_P)|]. split; field; assumption.
Qed.
Lemma back_zero : back Zero = (0, 1). Proof. reflexivity. Qed.
Lemma multiple_is P n R : On P -> multiple (back P) n R <-> R = back (Mul n P).
Proof.
  intros A. split.
  - induction 1 as [|n Q R H IH S]; [symmetry; apply back_zero|]. subst Q. apply sum_is in S; [exact S|exact A|apply On_mul, A].
  - intros ->. induction n as [|n IH]; [rewrite Mul_0, back_zero; constructor|]. econstructor; [exact IH|]. apply sum_is; [exact A|apply On_mul, A|reflexivity].
Qed.
Lemma num_base : num P25519 (fst B0) = 15112221349535400772501151409588531511454012693041857206046113283949847762202.
Proof. unfold B0, BASE. cbn [fst]. apply o_small. split; [discriminate|reflexivity]. Qed.
Lemma base_is B : base_point B <-> B = back B0.
Proof.
  unfold base_point. split.
  - intros (C & Y & X). apply on_curve_is in C. destruct C as (P & O & ->). f_equal. destruct P as [x y]. unfold back in *. cbn [fst snd] in *. apply same_iff in Y. rewrite o_mul, o_num in Y.
    assert (EY : y = snd B0). { apply (cancel_ne (o 5)); [intros H; apply o_eq in H; discriminate|]. transitivity (o 5 *' y); [ring|]. rewrite Y. unfold B0, BASE. cbn [snd]. rewrite <- o_mul. apply o_eq. vm_compute. reflexivity. }
    pose proof on_base as OB. rewrite (surjective_pairing B0) in OB |- *. rewrite <- EY in *. f_equal.
    pose proof (x_squared _ _ _ _ _ _ _ _ _ FT dd ii I2 D2 _ _ O) as S. rewrite (x_squared _ _ _ _ _ _ _ _ _ FT dd ii I2 D2 _ _ OB) in S. symmetry in S.
    pose proof (square_roots _ _ _ _ _ _ _ _ _ FT dec _ _ S) as [E|E]; [exact E|]. exfalso. rewrite E in X. rewrite parity in X by (rewrite num_base; discriminate). rewrite num_base in X. discriminate X.
  - intros ->. split; [apply on_curve_back, on_base|]. split; [apply same_iff; unfold back, B0, BASE; cbn [snd]; rewrite o_mul, o_num, <- o_mul; apply o_eq; vm_compute; reflexivity|]. unfold back. cbn [fst]. rewrite num_base. reflexivity.
Qed.
Lemma times_base_is k P : times_base k P <-> P = back (Mul (Z.to_nat k) B0).
Proof.
  unfold times_base. split.
  - intros (B & H & M). apply base_is in H. subst B. apply multiple_is in M; [exact M|exact on_base].
  - intros ->. exists (back B0). split; [apply base_is; reflexivity|]. apply multiple_is; [exact on_base|reflexivity].
Qed.
Lemma small_is P : On P -> small (back P) <-> Mul 8 P = Zero.
Proof. intros A. unfold small. rewrite multiple_is, <- back_zero by exact A. split; [intros H; symmetry; apply back_inj, H|intros ->; reflexivity]. Qed.
Lemma encodes_is P b : On P -> encodes (back P) b <-> b = enc P.
Proof.
  intros A. unfold encodes. rewrite little_is. change (snd (back P) + 2 ^ 255 * (fst (back P) mod 2)) with (code P). split.
  - intros (_ & L & E). unfold enc. rewrite <- E, <- L. symmetry. apply le_octets_of.
  - intros ->. split; [apply on_curve_back, A|]. split; [apply le_octets_length|]. unfold enc. rewrite of_le_octets_le. apply Z.mod_small. apply code_bound.
Qed.

(** ** Hashes *)
Lemma is_sha512_is m h : is_sha512 m h <-> h = digest SHA512 m.
Proof. unfold is_sha512. rewrite <- sha512_bits. split; [apply all_bits_inj|intros ->; reflexivity]. Qed.
Lemma scalar_is m k : scalar m k <-> k = hash_scalar m.
Proof.
  unfold scalar, hash_scalar. split.
  - intros (h & H & ->). apply is_sha512_is in H. subst h. rewrite little_is. reflexivity.
  - intros ->. exists (digest SHA512 m). rewrite is_sha512_is, little_is. auto.
Qed.
Lemma secret_is seed a prefix : secret seed a prefix <-> a = clamp (digest SHA512 seed) /\ prefix = skipn 32 (digest SHA512 seed).
Proof.
  assert (C : forall h, 2 ^ 254 + 8 * (little (firstn 32 h) / 8 mod 2 ^ 251) = clamp h).
  { intros h. rewrite little_is. unfold clamp. set (n := of_le_octets (firstn 32 h)). clearbody n. change (2 ^ 254) with (8 * 2 ^ 251). rewrite Z.rem_mul_r by (discriminate || reflexivity). rewrite (Z.mul_comm 8 (n / 8 mod 2 ^ 251)), Z.div_add by discriminate.
    rewrite (Z.div_small (n mod 8)) by (apply Z.mod_pos_bound; reflexivity). lia. }
  unfold secret. split.
  - intros (h & H & -> & ->). apply is_sha512_is in H. subst h. rewrite C. auto.
  - intros (-> & ->). exists (digest SHA512 seed). rewrite is_sha512_is, C. auto.
Qed.

(** ** Keys and signatures *)
Theorem public_key_is seed pk : public_key seed pk <-> pk = ed25519_public seed.
Proof.
  unfold public_key, ed25519_public. rewrite encode_mul by (pose proof (clamp_bound (digest SHA512 seed)); lia). split.
  - intros (a & prefix & A & S & T & E). apply secret_is in S. destruct S as [-> _]. apply times_base_is in T. subst A. apply encodes_is in E; [exact E|apply On_mul, on_base].
  - intros ->. exists (clamp (digest SHA512 seed)), (skipn 32 (digest SHA512 seed)), (back (Mul (Z.to_nat (clamp (digest SHA512 seed))) B0)). rewrite secret_is, times_base_is, encodes_is by apply On_mul, on_base. auto.
Qed.
Lemma second_half b n : 0 <= n < L25519 -> length b = 32%nat /\ little b = n <-> b = le_octets 32 n.
Proof.
  intros H. rewrite little_is. split.
  - intros (L & <-). rewrite <- L. symmetry. apply le_octets_of.
  - intros ->. split; [apply le_octets_length|]. rewrite of_le_octets_le. apply Z.mod_small. pose proof L_bounds. change (256 ^ Z.of_nat 32) with (2 ^ 256). lia.
Qed.
Theorem signature_is seed m sig : signature_of seed m sig <-> sig = ed25519_sign seed m.
Proof.
  pose proof (clamp_bound (digest SHA512 seed)) as BA. pose proof (hash_scalar_bound (skipn 32 (digest SHA512 seed) ++ m)) as BR.
  assert (EP : ed25519_public seed = encode_point (point_mul (clamp (digest SHA512 seed)) BASE)) by reflexivity.
  unfold signature_of, ed25519_sign. cbv zeta. rewrite <- EP. rewrite encode_mul by lia.
  set (r := hash_scalar (skipn 32 (digest SHA512 seed) ++ m)) in *. set (R := enc (Mul (Z.to_nat r) B0)). set (a := clamp (digest SHA512 seed)) in *. set (pk := ed25519_public seed) in *.
  assert (BS : 0 <= (r + hash_scalar (R ++ pk ++ m) * a) mod L25519 < L25519) by (apply Z.mod_pos_bound; reflexivity). split.
  - intros (a' & prefix & pk' & r' & R' & first & k & second & S & P & N & T & E & K & L & V & ->). apply secret_is in S. destruct S as [-> ->]. apply public_key_is in P. subst pk'. apply scalar_is in N. subst r'. apply times_base_is in T. subst R'.
    apply encodes_is in E; [|apply On_mul, on_base]. apply scalar_is in K. subst k first. f_equal. apply second_half; [exact BS|]. split; [exact L|exact V].
  - intros ->. exists a, (skipn 32 (digest SHA512 seed)), pk, r, (back (Mul (Z.to_nat r) B0)), R, (hash_scalar (R ++ pk ++ m)), (le_octets 32 ((r + hash_scalar (R ++ pk ++ m) * a) mod L25519)).
    rewrite secret_is, public_key_is, !scalar_is, times_base_is, encodes_is by apply On_mul, on_base. destruct (proj2 (second_half _ _ BS) eq_refl) as [L V]. repeat split; auto.
Qed.
Theorem valid_is pk m sig : length pk = 32%nat -> length sig = 64%nat -> valid pk m sig <-> ed25519_verify pk m sig = true.
Proof.
  intros LP LS. rewrite verify_accepts by assumption. unfold valid, accepts. split.
  - intros (A & R & first & second & k & S & T & -> & EA & ER & L & B & NA & NR & K & TS & MT & SUM). pose proof EA as (OA & _). pose proof ER as (OR & LF & _). apply on_curve_is in OA, OR. destruct OA as (A' & OA & ->), OR as (R' & OR & ->).
    apply encodes_is in EA; [|exact OA]. apply encodes_is in ER; [|exact OR]. apply scalar_is in K. apply times_base_is in TS. apply multiple_is in MT; [|exact OA]. subst S T. apply sum_is in SUM; [|exact OR|apply On_mul, OA]. apply back_inj in SUM.
    rewrite small_is in NA by exact OA. rewrite small_is in NR by exact OR. exists A', R'. rewrite <- LF, firstn_app, Nat.sub_diag, firstn_all, skipn_app, Nat.sub_diag, skipn_all. cbn [firstn skipn app]. rewrite app_nil_r, <- little_is.
    subst first k. repeat split; auto.
  - intros (A & R & OA & OR & EA & ER & B & NA & NR & E). exists (back A), (back R), (firstn 32 sig), (skipn 32 sig), (hash_scalar (enc R ++ pk ++ m)), (back (Mul (Z.to_nat (of_le_octets (skipn 32 sig))) B0)), (back (Mul (Z.to_nat (hash_scalar (enc R ++ pk ++ m))) A)).
    rewrite little_is, !encodes_is, !small_is, scalar_is, times_base_is, multiple_is, sum_is by (assumption || apply On_mul, OA). rewrite firstn_skipn, skipn_length, LS, ER, E. repeat split; auto.
Qed.
Lemma nonce_is seed m r : nonce seed m r <-> r = hash_scalar (skipn 32 (digest SHA512 seed) ++ m).
Proof.
  unfold nonce. split.
  - intros (a & prefix & S & K). apply secret_is in S. destruct S as [_ ->]. apply scalar_is, K.
  - intros ->. exists (clamp (digest SHA512 seed)), (skipn 32 (digest SHA512 seed)). rewrite secret_is, scalar_is. auto.
Qed.
