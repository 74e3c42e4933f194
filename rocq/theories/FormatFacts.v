(** * FormatFacts: numbers, texts and dicts of the wire formats (SpecFormat) as the decoders build them. *)
From Coq Require Import String Ascii List ZArith Bool Lia.
From Verif Require Import PyBase DictFacts Rawsocket BitFacts Encoding EncodingFacts Utf8 Utf8Facts CodecBase CodecFacts SpecCodec SpecFormat.
Import ListNotations.
Local Open Scope Z_scope.

Lemma number_be b : number b = of_be b.
Proof. induction b as [|a b IH]; [reflexivity|]. rewrite of_be_cons. cbn [number]. rewrite IH. reflexivity. Qed.
Lemma number_range b : 0 <= number b < 256 ^ count b.
Proof. rewrite number_be. apply of_be_range. Qed.

(** ** Texts *)
Lemma byte_Z_of z : 0 <= z < 256 -> byte_Z (byte_of z) = z.
Proof. intros H. unfold byte_Z, byte_of. rewrite N_ascii_embedding by lia. lia. Qed.
Lemma utf8_char_iff p o : utf8_char p o <-> is_scalar p = true /\ o = map byte_Z (Utf8.utf8_char p).
Proof.
  unfold is_scalar, Utf8.utf8_char. split.
  - intros [q H|a b A B H|a b c q A B C -> H N|a b c d q A B C D -> H].
    + destruct (Z.ltb_spec q 128); [|lia]. cbn [map]. rewrite byte_Z_of by lia. split; [|reflexivity].
      apply orb_true_iff. left. apply andb_true_iff. split; [apply Z.leb_le|apply Z.ltb_lt]; lia.
    + destruct (Z.ltb_spec (64 * a + b) 128); [lia|]. destruct (Z.ltb_spec (64 * a + b) 2048); [|lia]. cbn [map].
      replace ((64 * a + b) / 64) with a by (apply (Z.div_unique _ _ _ b); lia).
      replace ((64 * a + b) mod 64) with b by (apply (Z.mod_unique _ _ a); lia). rewrite !byte_Z_of by lia. split; [|reflexivity].
      apply orb_true_iff. left. apply andb_true_iff. split; [apply Z.leb_le|apply Z.ltb_lt]; lia.
    + set (w := 4096 * a + 64 * b + c) in *. destruct (Z.ltb_spec w 128); [lia|]. destruct (Z.ltb_spec w 2048); [lia|].
      destruct (Z.ltb_spec w 65536); [|lia]. cbn [map].
      replace (w / 4096) with a by (apply (Z.div_unique _ _ _ (64 * b + c)); lia).
      replace (w / 64) with (64 * a + b) by (apply (Z.div_unique _ _ _ c); lia).
      replace ((64 * a + b) mod 64) with b by (apply (Z.mod_unique _ _ a); lia).
      replace (w mod 64) with c by (apply (Z.mod_unique _ _ (64 * a + b)); lia). rewrite !byte_Z_of by lia. split; [|reflexivity].
      apply orb_true_iff. destruct (Z.lt_ge_cases w 55296); [left|right]; apply andb_true_iff; (split; [apply Z.leb_le|]); try (apply Z.ltb_lt); try (apply Z.leb_le); lia.
    + set (w := 262144 * a + 4096 * b + 64 * c + d) in *. destruct (Z.ltb_spec w 128); [lia|]. destruct (Z.ltb_spec w 2048); [lia|].
      destruct (Z.ltb_spec w 65536); [lia|]. cbn [map].
      replace (w / 262144) with a by (apply (Z.div_unique _ _ _ (4096 * b + 64 * c + d)); lia).
      replace (w / 4096) with (64 * a + b) by (apply (Z.div_unique _ _ _ (64 * c + d)); lia).
      replace (w / 64) with (4096 * a + 64 * b + c) by (apply (Z.div_unique _ _ _ d); lia).
      replace ((64 * a + b) mod 64) with b by (apply (Z.mod_unique _ _ a); lia).
      replace ((4096 * a + 64 * b + c) mod 64) with c by (apply (Z.mod_unique _ _ (64 * a + b)); lia).
      replace (w mod 64) with d by (apply (Z.mod_unique _ _ (4096 * a + 64 * b + c)); lia). rewrite !byte_Z_of by lia. split; [|reflexivity].
      apply orb_true_iff. right; apply andb_true_iff; split; apply Z.leb_le; lia.
  - intros [S ->]. apply orb_true_iff in S. rewrite !andb_true_iff, !Z.leb_le, Z.ltb_lt in S.
    destruct (Z.ltb_spec p 128); [cbn [map]; rewrite byte_Z_of by lia; constructor; lia|].
    assert (P0 := Z.div_mod p 64). assert (M0 := Z.mod_pos_bound p 64).
    destruct (Z.ltb_spec p 2048).
    { cbn [map]. assert (0 <= p / 64 < 32) by (split; [apply Z.div_pos; lia|apply Z.div_lt_upper_bound; lia]).
      rewrite !byte_Z_of by lia. assert (E : p = 64 * (p / 64) + p mod 64) by lia.
      rewrite E at 1. apply two; lia. }
    assert (P1 := Z.div_mod (p / 64) 64). assert (M1 := Z.mod_pos_bound (p / 64) 64).
    rewrite Z.div_div in P1 by lia. change (64 * 64) with 4096 in P1.
    destruct (Z.ltb_spec p 65536).
    { cbn [map]. assert (0 <= p / 4096 < 16) by (split; [apply Z.div_pos; lia|apply Z.div_lt_upper_bound; lia]).
      rewrite !byte_Z_of by lia. apply three; lia. }
    assert (P2 := Z.div_mod (p / 4096) 64). assert (M2 := Z.mod_pos_bound (p / 4096) 64).
    rewrite Z.div_div in P2 by lia. change (4096 * 64) with 262144 in P2.
    cbn [map]. assert (0 <= p / 262144 < 8) by (split; [apply Z.div_pos; lia|apply Z.div_lt_upper_bound; lia]).
    rewrite !byte_Z_of by lia. apply four; lia.
Qed.
Lemma utf8_iff ps : forall os, utf8 ps os <-> forallb is_scalar ps = true /\ os = map byte_Z (utf8_encode ps).
Proof.
  induction ps as [|p ps IH]; intros os; split.
  - inversion 1; subst. split; reflexivity.
  - intros [_ ->]. constructor.
  - inversion 1 as [|? ? o os' C T]; subst. apply utf8_char_iff in C as [S ->]. apply IH in T as [S' ->].
    cbn [forallb]. rewrite S, S'. split; [reflexivity|]. unfold utf8_encode. cbn [flat_map]. rewrite map_app. reflexivity.
  - cbn [forallb]. rewrite andb_true_iff. intros [[S S'] ->]. unfold utf8_encode. cbn [flat_map]. rewrite map_app. constructor; [apply utf8_char_iff; auto|apply IH; auto].
Qed.
Lemma map_value_inj (a b : bytes) : map byte_Z a = map byte_Z b -> a = b.
Proof.
  revert b; induction a as [|x a IH]; intros [|y b]; cbn [map]; try discriminate; [reflexivity|]. intros E. injection E as E1 E2.
  f_equal; [|apply IH; exact E2]. unfold byte_Z in E1. apply N2Z.inj in E1. rewrite <- (ascii_N_embedding x), <- (ascii_N_embedding y), E1. reflexivity.
Qed.
Lemma is_text_iff x : is_text x <-> utf8_valid x = true.
Proof.
  unfold is_text, utf8_valid. split.
  - intros [ps H]. apply utf8_iff in H as [S E]. apply map_value_inj in E as ->. rewrite utf8_decode_encode by exact S. reflexivity.
  - destruct (utf8_decode x) as [ps|] eqn:E; [|discriminate]. intros _. apply utf8_encode_decode in E as [<- S]. exists ps. apply utf8_iff. auto.
Qed.

(** ** Floats *)
Lemma fields s E m : (s = 0 \/ s = 1) -> 0 <= E < 2048 -> 0 <= m < 2 ^ 52 ->
  let f := s * 2 ^ 63 + (E * 2 ^ 52 + m) in
  0 <= f < 2 ^ 64 /\ negative 11 52 f = (s =? 1) /\ exponent 11 52 f = E /\ mantissa 52 f = m.
Proof.
  intros S HE Hm. cbv zeta. unfold negative, exponent, mantissa. change (11 + 52) with 63.
  assert (B : 0 <= E * 2 ^ 52 + m < 2 ^ 63) by lia.
  split; [lia|]. split; [f_equal; symmetry; apply (Z.div_unique _ _ _ (E * 2 ^ 52 + m)); lia|].
  replace (s * 2 ^ 63 + (E * 2 ^ 52 + m)) with ((s * 2 ^ 11 + E) * 2 ^ 52 + m) by (change (2 ^ 63) with (2 ^ 11 * 2 ^ 52); ring).
  split; [|symmetry; apply (Z.mod_unique _ _ (s * 2 ^ 11 + E)); lia].
  rewrite Z.div_add_l, Z.div_small by lia. symmetry. apply (Z.mod_unique _ _ s); lia.
Qed.
Lemma decompose f : 0 <= f < 2 ^ 64 ->
  let s := if negative 11 52 f then 1 else 0 in
  f = s * 2 ^ 63 + (exponent 11 52 f * 2 ^ 52 + mantissa 52 f) /\ 0 <= exponent 11 52 f < 2048 /\ 0 <= mantissa 52 f < 2 ^ 52.
Proof.
  intros F. cbv zeta. unfold negative, exponent, mantissa. change (11 + 52) with 63.
  assert (A := Z.div_mod f (2 ^ 52)). assert (B := Z.mod_pos_bound f (2 ^ 52)).
  assert (C := Z.div_mod (f / 2 ^ 52) (2 ^ 11)). assert (D := Z.mod_pos_bound (f / 2 ^ 52) (2 ^ 11)).
  rewrite Z.div_div in C by lia. change (2 ^ 52 * 2 ^ 11) with (2 ^ 63) in C.
  assert (G : 0 <= f / 2 ^ 63 < 2) by (split; [apply Z.div_pos; lia|apply Z.div_lt_upper_bound; lia]).
  destruct (Z.eqb_spec (f / 2 ^ 63) 1) as [H|H]; (split; [|lia]); lia.
Qed.

(** The magnitude of the number with exponent [E] and mantissa [m]. *)
Definition mag (E m : Z) : Z := if E =? 0 then m else (2 ^ 52 + m) * 2 ^ (E - 1).
Lemma magnitude_mag f : magnitude 11 52 f = mag (exponent 11 52 f) (mantissa 52 f).
Proof.
  unfold magnitude, mag. change (bias 11) with 1023. destruct (Z.eqb_spec (exponent 11 52 f) 0); [change (1075 - 1023 - 52) with 0; ring|].
  do 2 f_equal. lia.
Qed.
Lemma mag_upper E m : 0 <= E -> 0 <= m < 2 ^ 52 -> 0 <= mag E m < 2 ^ (52 + E).
Proof.
  intros HE Hm. unfold mag. destruct (Z.eqb_spec E 0) as [->|N]; [lia|]. replace (52 + E) with (53 + (E - 1)) by lia. rewrite Z.pow_add_r by lia.
  assert (0 < 2 ^ (E - 1)) by (apply Z.pow_pos_nonneg; lia). nia.
Qed.
Lemma mag_lower E m : 0 < E -> 0 <= m -> 2 ^ (51 + E) <= mag E m.
Proof.
  intros HE Hm. unfold mag. destruct (Z.eqb_spec E 0) as [->|N]; [lia|]. replace (51 + E) with (52 + (E - 1)) by lia. rewrite Z.pow_add_r by lia.
  assert (0 < 2 ^ (E - 1)) by (apply Z.pow_pos_nonneg; lia). nia.
Qed.
Lemma mag_lt E m E' m' : 0 <= E -> 0 <= m < 2 ^ 52 -> 0 <= m' < 2 ^ 52 -> E < E' \/ E = E' /\ m < m' -> mag E m < mag E' m'.
Proof.
  intros HE Hm Hm' [L|[<- L]].
  - eapply Z.lt_le_trans; [apply mag_upper; assumption|]. eapply Z.le_trans; [|apply mag_lower; lia]. apply Z.pow_le_mono_r; lia.
  - unfold mag. destruct (Z.eqb_spec E 0); [exact L|]. assert (0 < 2 ^ (E - 1)) by (apply Z.pow_pos_nonneg; lia). nia.
Qed.
Lemma mag_inj E m E' m' : 0 <= E -> 0 <= E' -> 0 <= m < 2 ^ 52 -> 0 <= m' < 2 ^ 52 -> mag E m = mag E' m' -> E = E' /\ m = m'.
Proof.
  intros HE HE' Hm Hm' H. destruct (Z.lt_total E E') as [L|[L|L]].
  - exfalso. assert (X := mag_lt E m E' m' HE Hm Hm' (or_introl L)). lia.
  - split; [exact L|]. destruct (Z.lt_total m m') as [M|[M|M]]; [|exact M|]; exfalso.
    + assert (X := mag_lt E m E' m' HE Hm Hm' (or_intror (conj L M))). lia.
    + assert (X := mag_lt E' m' E m HE' Hm' Hm (or_intror (conj (eq_sym L) M))). lia.
  - exfalso. assert (X := mag_lt E' m' E m HE' Hm' Hm (or_introl L)). lia.
Qed.

Lemma is_float_unique e m z f g : is_float e m z f -> is_float e m z g -> f = g.
Proof.
  intros (F & NF & HF) (G & NG & HG). destruct (decompose f F) as (DF & EF & MF). destruct (decompose g G) as (DG & EG & MG).
  rewrite NF in DF. rewrite NG in DG. rewrite DF, DG.
  destruct HF as [(A & B & C)|(A & B & C)], HG as [(A' & B' & C')|(A' & B' & C')]; try contradiction.
  - rewrite <- C' in C. rewrite !magnitude_mag in C. apply mag_inj in C as [-> ->]; try lia; auto.
  - unfold finite in B, B'. change (2 ^ 11 - 1) with 2047 in B, B'. assert (exponent 11 52 f = 2047) as -> by lia. assert (exponent 11 52 g = 2047) as -> by lia.
    rewrite C, C'. reflexivity.
Qed.

Lemma widen_is_float e m z : 2 <= e <= 11 -> 1 <= m <= 52 -> bias e + m <= 1022 -> 0 <= z < 2 ^ (1 + e + m) -> is_float e m z (widen e m z).
Proof.
  intros He Hm Hb Hz. unfold widen. fold (bias e). fold (exponent e m z). fold (mantissa m z).
  set (s := z / 2 ^ (e + m)). set (x := exponent e m z). set (y := mantissa m z).
  assert (S : s = 0 \/ s = 1).
  { assert (0 <= s < 2); [|lia]. unfold s. split; [apply Z.div_pos; [lia|apply Z.pow_pos_nonneg; lia]|]. apply Z.div_lt_upper_bound; [apply Z.pow_pos_nonneg; lia|].
    replace (1 + e + m) with (e + m + 1) in Hz by lia. rewrite (Z.pow_add_r 2 (e + m) 1) in Hz by lia. lia. }
  assert (X : 0 <= x < 2 ^ e) by (apply Z.mod_pos_bound, Z.pow_pos_nonneg; lia).
  assert (Y : 0 <= y < 2 ^ m) by (apply Z.mod_pos_bound, Z.pow_pos_nonneg; lia).
  assert (NS : negative e m z = (s =? 1)) by reflexivity.
  assert (P52 : 2 ^ 52 = 2 ^ m * 2 ^ (52 - m)) by (rewrite <- Z.pow_add_r by lia; f_equal; lia).
  assert (Q : 0 < 2 ^ (52 - m)) by (apply Z.pow_pos_nonneg; lia).
  assert (Bi : 2 ^ e - 1 = 2 * bias e + 1). { unfold bias. replace (2 ^ e) with (2 ^ 1 * 2 ^ (e - 1)); [lia|]. rewrite <- Z.pow_add_r by lia. f_equal. lia. }
  assert (Bp : 1 <= bias e). { unfold bias. assert (2 ^ 1 <= 2 ^ (e - 1)) by (apply Z.pow_le_mono_r; lia). lia. }
  destruct (Z.eqb_spec x (2 ^ e - 1)) as [XT|XT].
  - destruct (fields s 2047 (y * 2 ^ (52 - m)) S) as (R & N & E & M); [lia|nia|]. split; [exact R|]. split; [rewrite N, NS; reflexivity|].
    right. unfold finite. fold x. rewrite E, M. change (2 ^ 11 - 1) with 2047. split; [lia|]. split; [lia|]. reflexivity.
  - destruct (Z.eqb_spec x 0) as [X0|X0].
    + destruct (Z.eqb_spec y 0) as [Y0|Y0].
      * destruct (fields s 0 0 S) as (R & N & E & M); [lia|lia|]. change (0 * 2 ^ 52 + 0) with 0 in *. split; [exact R|]. split; [rewrite N, NS; reflexivity|].
        left. unfold finite. fold x. rewrite E. change (2 ^ 11 - 1) with 2047. split; [exact XT|]. split; [lia|].
        rewrite magnitude_mag, E, M. unfold magnitude. fold x y. rewrite X0, Y0. reflexivity.
      * set (k := Z.log2 y). destruct (Z.log2_spec y ltac:(lia)) as [L U]. fold k in L, U.
        assert (K0 : 0 <= k) by apply Z.log2_nonneg.
        assert (K : k < m) by (apply (Z.pow_lt_mono_r_iff 2); lia).
        assert (P : 2 ^ 52 = 2 ^ k * 2 ^ (52 - k)) by (rewrite <- Z.pow_add_r by lia; f_equal; lia).
        assert (P' : 0 < 2 ^ (52 - k)) by (apply Z.pow_pos_nonneg; lia).
        rewrite Z.pow_succ_r in U by lia.
        destruct (fields s (k + 1 - bias e - m + 1023) ((y - 2 ^ k) * 2 ^ (52 - k)) S) as (R & N & E & M); [lia|rewrite P; nia|].
        split; [exact R|]. split; [rewrite N, NS; reflexivity|].
        left. unfold finite. fold x. rewrite E. change (2 ^ 11 - 1) with 2047. split; [exact XT|]. split; [lia|].
        rewrite magnitude_mag, E, M. unfold magnitude, mag. fold x y. rewrite X0. change (0 =? 0) with true.
        destruct (Z.eqb_spec (k + 1 - bias e - m + 1023) 0); [lia|].
        replace (2 ^ 52 + (y - 2 ^ k) * 2 ^ (52 - k)) with (y * 2 ^ (52 - k)) by (rewrite P; ring).
        rewrite <- Z.mul_assoc, <- Z.pow_add_r by lia. cbv beta iota. do 2 f_equal. lia.
    + destruct (fields s (x - bias e + 1023) (y * 2 ^ (52 - m)) S) as (R & N & E & M); [lia|nia|]. split; [exact R|]. split; [rewrite N, NS; reflexivity|].
      left. unfold finite. fold x. rewrite E. change (2 ^ 11 - 1) with 2047. split; [exact XT|]. split; [lia|].
      rewrite magnitude_mag, E, M. unfold magnitude, mag. fold x y. destruct (Z.eqb_spec x 0); [contradiction|]. destruct (Z.eqb_spec (x - bias e + 1023) 0); [lia|].
      replace (2 ^ 52 + y * 2 ^ (52 - m)) with ((2 ^ m + y) * 2 ^ (52 - m)) by (rewrite P52; ring).
      rewrite <- Z.mul_assoc, <- Z.pow_add_r by lia. do 2 f_equal. lia.
Qed.
Lemma half_is_float z : 0 <= z < 2 ^ 16 -> is_float 5 10 z (widen 5 10 z).
Proof. intros H. apply widen_is_float; [lia|lia|change (bias 5) with 15; lia|exact H]. Qed.
Lemma single_is_float z : 0 <= z < 2 ^ 32 -> is_float 8 23 z (widen 8 23 z).
Proof. intros H. apply widen_is_float; [lia|lia|change (bias 8) with 127; lia|exact H]. Qed.
Lemma double_is_float z : 0 <= z < 2 ^ 64 -> is_float 11 52 z z.
Proof.
  intros H. split; [exact H|]. split; [reflexivity|]. unfold finite. change (2 ^ (52 - 52)) with 1.
  destruct (Z.eq_dec (exponent 11 52 z) (2 ^ 11 - 1)); [right|left]; repeat split; auto; lia.
Qed.

(** ** Keys *)
Lemma f_expo_exponent f : f_expo f = exponent 11 52 f. Proof. reflexivity. Qed.
Lemma f_mant_mantissa f : f_mant f = mantissa 52 f. Proof. reflexivity. Qed.
Lemma f_sign_negative f : 0 <= f < 2 ^ 64 -> f_sign f = negative 11 52 f.
Proof.
  intros F. unfold f_sign, negative. change (11 + 52) with 63.
  assert (G : 0 <= f / 2 ^ 63 < 2) by (split; [apply Z.div_pos; lia|apply Z.div_lt_upper_bound; lia]).
  assert (f / 2 ^ 63 = 0 \/ f / 2 ^ 63 = 1) as [->| ->] by lia; reflexivity.
Qed.
Lemma mag_scaled E m : 0 <= E -> 0 <= m < 2 ^ 52 ->
  let M := if E =? 0 then m else 2 ^ 52 + m in
  let X := (if E =? 0 then 1 else E) - 1075 in mag E m = M * 2 ^ (X + 1074).
Proof.
  intros HE Hm. cbv zeta. unfold mag. destruct (Z.eqb_spec E 0); [change (1 - 1075 + 1074) with 0; ring|]. do 2 f_equal. lia.
Qed.
Lemma float_eq_int_iff f z : 0 <= f < 2 ^ 64 -> float_eq_int f z = true <-> amount (VFloat f) = Some (z * 2 ^ 1074).
Proof.
  intros F. unfold float_eq_int. cbn [amount]. rewrite f_expo_exponent, f_mant_mantissa, f_sign_negative by exact F.
  destruct (decompose f F) as (_ & HE & Hm). rewrite magnitude_mag. rewrite mag_scaled by lia. cbv zeta.
  set (E := exponent 11 52 f) in *. set (m := mantissa 52 f) in *. destruct (Z.eqb_spec E 2047) as [T|T]; [split; discriminate|].
  set (M := if E =? 0 then m else 2 ^ 52 + m). set (X := (if E =? 0 then 1 else E) - 1075).
  assert (HX : -1074 <= X) by (unfold X; destruct (Z.eqb_spec E 0); lia).
  set (n := if negative 11 52 f then - M else M).
  replace (if negative 11 52 f then - (M * 2 ^ (X + 1074)) else M * 2 ^ (X + 1074)) with (n * 2 ^ (X + 1074)) by (unfold n; destruct (negative 11 52 f); ring).
  assert (P : 0 < 2 ^ (X + 1074)) by (apply Z.pow_pos_nonneg; lia).
  destruct (Z.leb_spec 0 X) as [L|L]; rewrite Z.eqb_eq.
  - rewrite (Z.pow_add_r 2 X 1074), Z.mul_assoc by lia.
    assert (0 < 2 ^ 1074) by (apply Z.pow_pos_nonneg; lia). revert H. generalize (2 ^ 1074). intros q Q. split; [intros ->; reflexivity|].
    intros H. injection H as H. apply Z.mul_reg_r in H; [exact H|lia].
  - replace (2 ^ 1074) with (2 ^ (- X) * 2 ^ (X + 1074)). 2:{ rewrite <- Z.pow_add_r by lia. f_equal. lia. }
    rewrite Z.mul_assoc. revert P. generalize (2 ^ (X + 1074)). intros q Q. split; [intros ->; reflexivity|].
    intros H. injection H as H. apply Z.mul_reg_r in H; [exact H|lia].
Qed.
Lemma float_eqb_iff f g : 0 <= f < 2 ^ 64 -> 0 <= g < 2 ^ 64 -> float_eqb f g = true <-> same_key (VFloat f) (VFloat g).
Proof.
  intros F G. unfold float_eqb, is_nan, is_zero. change f_expo with (exponent 11 52). change f_mant with (mantissa 52). cbn [same_key amount].
  destruct (decompose f F) as (DF & EF & MF). destruct (decompose g G) as (DG & EG & MG). rewrite !magnitude_mag.
  rewrite !andb_true_iff, orb_true_iff, !negb_true_iff, !andb_false_iff, !negb_false_iff, !andb_true_iff, !Z.eqb_eq, !Z.eqb_neq.
  split.
  - intros [[NF NG] [<-|[[E0 M0] [E1 M1]]]].
    + destruct (Z.eqb_spec (exponent 11 52 f) 2047) as [T|T]; [right|left; eauto]. exists f. repeat split; auto. destruct NF; [contradiction|assumption].
    + left. rewrite E0, E1, M0, M1. exists 0. destruct (negative 11 52 f), (negative 11 52 g); split; reflexivity.
  - intros [(n & A & B)|(h & A & B & [C D])].
    + destruct (Z.eqb_spec (exponent 11 52 f) 2047) as [|T]; [discriminate|]. destruct (Z.eqb_spec (exponent 11 52 g) 2047) as [|T']; [discriminate|].
      split; [auto|]. injection A as A. injection B as B.
      assert (X := mag_upper (exponent 11 52 f) (mantissa 52 f) ltac:(lia) MF). assert (Y := mag_upper (exponent 11 52 g) (mantissa 52 g) ltac:(lia) MG).
      assert (H : mag (exponent 11 52 f) (mantissa 52 f) = mag (exponent 11 52 g) (mantissa 52 g) /\ (negative 11 52 f = negative 11 52 g \/ mag (exponent 11 52 f) (mantissa 52 f) = 0)).
      { destruct (negative 11 52 f), (negative 11 52 g); split; try lia; auto. }
      destruct H as [H S]. destruct S as [S|Z0].
      * left. apply mag_inj in H as [H1 H2]; try lia. rewrite DF, DG, H1, H2, S. reflexivity.
      * right. assert (W : mag 0 0 = 0) by reflexivity. rewrite Z0 in H. symmetry in H. rewrite <- W in Z0, H.
        apply mag_inj in Z0 as [-> ->]; try lia. apply mag_inj in H as [-> ->]; try lia; auto.
    + injection A as <-. injection B as <-. auto.
Qed.
Lemma amount_int z : amount (VInt z) = Some (z * 2 ^ 1074). Proof. reflexivity. Qed.
Lemma amount_bool b : amount (VBool b) = Some ((if b then 1 else 0) * 2 ^ 1074).
Proof. destruct b; cbn [amount]; f_equal; rewrite ?Z.mul_1_l, ?Z.mul_0_l; reflexivity. Qed.
Lemma unit_inj x z : Some (x * 2 ^ 1074) = Some (z * 2 ^ 1074) <-> x = z.
Proof.
  assert (0 < 2 ^ 1074) by (apply Z.pow_pos_nonneg; lia). revert H. generalize (2 ^ 1074). intros q Q. split; [|intros ->; reflexivity].
  intros H. injection H as H. apply Z.mul_reg_r in H; [exact H|lia].
Qed.
Lemma py_eq_int_iff v z : python_value v -> py_eq_int v z = true <-> amount v = Some (z * 2 ^ 1074).
Proof.
  destruct v; cbn [py_eq_int]; intros P; try (split; discriminate).
  - rewrite amount_bool, unit_inj. apply Z.eqb_eq.
  - rewrite amount_int, unit_inj. apply Z.eqb_eq.
  - apply float_eq_int_iff. exact P.
Qed.
Lemma key_eqb_iff a b : python_value a -> python_value b -> key_eqb a b = true <-> same_key a b.
Proof.
  intros A B.
  assert (N : forall z, (exists n, amount (VInt z) = Some n /\ amount b = Some n) <-> py_eq_int b z = true).
  { intros z. rewrite (py_eq_int_iff b z B), amount_int. split; [intros (n & [= <-] & H); exact H|eauto]. }
  destruct a as [|x|x|f|s|s|l|d|o t].
  - destruct b; cbn [key_eqb same_key]; try (split; [discriminate|intros [(n & H & _)|(g & H & _)]; discriminate]). tauto.
  - cbn [key_eqb]. rewrite <- N. cbn [same_key]. rewrite amount_int. rewrite <- amount_bool.
    destruct b; split; try (intros H; left; exact H); intros [H|(g & H & _)]; try discriminate H; exact H.
  - cbn [key_eqb]. rewrite <- N. cbn [same_key]. destruct b; split; try (intros H; left; exact H); intros [H|(g & H & _)]; try discriminate H; exact H.
  - cbn [python_value] in A. destruct b as [|y|y|g|s|s|l|d|o t]; cbn [key_eqb];
      try (cbn [same_key]; split; [discriminate|intros [(n & _ & H)|(h & _ & H & _)]; discriminate]).
    + rewrite float_eq_int_iff by exact A. cbn [same_key]. rewrite amount_bool. split; [eauto|]. intros [(n & H & [= <-])|(h & _ & H & _)]; [exact H|discriminate].
    + rewrite float_eq_int_iff by exact A. cbn [same_key]. rewrite amount_int. split; [eauto|]. intros [(n & H & [= <-])|(h & _ & H & _)]; [exact H|discriminate].
    + apply float_eqb_iff; assumption.
  - destruct b; cbn [key_eqb same_key]; try (split; [discriminate|intros [(n & H & _)|(g & H & _)]; discriminate]). apply String.eqb_eq.
  - destruct b; cbn [key_eqb same_key]; try (split; [discriminate|intros [(n & H & _)|(g & H & _)]; discriminate]). apply bytes_eqb_eq.
  - destruct b; cbn [key_eqb same_key]; (split; [discriminate|intros [(n & H & _)|(g & H & _)]; discriminate]).
  - destruct b; cbn [key_eqb same_key]; (split; [discriminate|intros [(n & H & _)|(g & H & _)]; discriminate]).
  - destruct b; cbn [key_eqb same_key]; (split; [discriminate|intros [(n & H & _)|(g & H & _)]; discriminate]).
Qed.

(** Same keys as a partial equivalence. *)
Lemma same_key_sym a b : same_key a b -> same_key b a.
Proof.
  assert (G : (exists n, amount a = Some n /\ amount b = Some n) \/ (exists f, a = VFloat f /\ b = VFloat f /\ infinite f) ->
              (exists n, amount b = Some n /\ amount a = Some n) \/ (exists f, b = VFloat f /\ a = VFloat f /\ infinite f)).
  { intros [(n & A & B)|(f & A & B & C)]; [left|right]; eauto. }
  destruct a, b; cbn [same_key] in *; auto.
Qed.
Lemma same_key_trans a b c : same_key a b -> same_key b c -> same_key a c.
Proof.
  assert (G : forall x y z, (exists n, amount x = Some n /\ amount y = Some n) \/ (exists f, x = VFloat f /\ y = VFloat f /\ infinite f) ->
              (exists n, amount y = Some n /\ amount z = Some n) \/ (exists f, y = VFloat f /\ z = VFloat f /\ infinite f) ->
              (exists n, amount x = Some n /\ amount z = Some n) \/ (exists f, x = VFloat f /\ z = VFloat f /\ infinite f)).
  { intros x y z [(n & A & B)|(f & A & B & C)] [(m & A' & B')|(g & A' & B' & C')].
    - left. exists n. split; [exact A|]. rewrite A' in B. congruence.
    - exfalso. subst. destruct C' as [C1 _]. cbn [amount] in B. rewrite C1 in B. discriminate.
    - exfalso. subst. destruct C as [C1 _]. cbn [amount] in A'. rewrite C1 in A'. discriminate.
    - right. exists f. subst. injection A' as <-. auto. }
  assert (K : forall v, match v with VBool _ | VInt _ | VFloat _ => True | _ => amount v = None /\ forall f, v <> VFloat f end) by (destruct v; auto; split; discriminate || reflexivity).
  destruct a, b; cbn [same_key]; try (intros [(n & A & B)|(f & A & B & C)]; discriminate);
    destruct c; cbn [same_key]; try (intros ? [(n & A' & B')|(g & A' & B' & C')]; discriminate);
    try (intros; congruence); try (intros; exact I); try (apply G).
Qed.

(** ** Dicts *)
Definition gather (ps : list (val * val)) (d : dict) : dict := fold_left (fun d kv => vset (fst kv) (snd kv) d) ps d.
Definition apart (d : dict) : Prop := ForallOrdPairs (fun a b => ~ same_key (fst b) (fst a)) d.
Definition keys_ok (d : list (val * val)) : Prop := Forall (fun kv => python_value (fst kv)) d.
Lemma apart_mid d1 kv d2 : apart (d1 ++ kv :: d2) -> forall kv', In kv' d1 -> ~ same_key (fst kv) (fst kv').
Proof.
  unfold apart. induction d1 as [|a d1 IH]; cbn [app]; [intros _ ? []|]. inversion 1 as [|? ? A B]; subst. intros kv' [<-|J]; [|apply IH; assumption].
  rewrite Forall_forall in A. apply A. apply in_or_app. right. left. reflexivity.
Qed.
Lemma vset_new k x d : python_value k -> keys_ok d -> (forall k' y, In (k', y) d -> ~ same_key k k') -> vset k x d = d ++ [(k, x)].
Proof.
  intros K. unfold vset. induction d as [|[k' y] d IH]; intros D N; cbn [dset app]; [reflexivity|]. inversion D; subst.
  destruct (key_eqb k k') eqn:E; [apply key_eqb_iff in E; [exfalso; eapply N; [left; reflexivity|exact E]|assumption|assumption]|].
  f_equal. apply IH; [assumption|]. intros k'' z J. apply N with z. right. exact J.
Qed.
Lemma vset_again k x d1 k' y d2 : python_value k -> keys_ok (d1 ++ (k', y) :: d2) -> apart (d1 ++ (k', y) :: d2) -> same_key k k' ->
  vset k x (d1 ++ (k', y) :: d2) = d1 ++ (k', x) :: d2.
Proof.
  intros K D A S. assert (M := apart_mid _ _ _ A). revert D M. clear A. unfold vset. induction d1 as [|[a z] d1 IH]; cbn [app dset]; intros D M; inversion D; subst.
  - apply key_eqb_iff in S; [|assumption..]. rewrite S. reflexivity.
  - destruct (key_eqb k a) eqn:E.
    + apply key_eqb_iff in E; [|assumption..]. exfalso. apply (M (a, z) (or_introl eq_refl)). cbn [fst]. eapply same_key_trans; [apply same_key_sym; exact S|exact E].
    + f_equal. apply IH; [assumption|]. intros; apply M. right. assumption.
Qed.
Lemma vset_cases k x d : python_value k -> keys_ok d ->
  ((forall k' y, In (k', y) d -> ~ same_key k k') /\ vset k x d = d ++ [(k, x)]) \/
  (exists d1 k' y d2, d = d1 ++ (k', y) :: d2 /\ same_key k k' /\ vset k x d = d1 ++ (k', x) :: d2).
Proof.
  intros K. unfold vset. induction d as [|[k' y] d IH]; intros D; cbn [dset app].
  - left. split; [intros ? ? []|reflexivity].
  - inversion D; subst. destruct (key_eqb k k') eqn:E.
    + right. exists [], k', y, d. split; [reflexivity|]. split; [apply key_eqb_iff; assumption|reflexivity].
    + assert (N : ~ same_key k k') by (intros S; apply key_eqb_iff in S; [congruence|assumption..]).
      destruct IH as [[IH ->]|(d1 & q & z & d2 & -> & S & ->)]; [assumption| |].
      * left. split; [|reflexivity]. intros k'' z [[= -> ->]|J]; [exact N|eapply IH; exact J].
      * right. exists ((k', y) :: d1), q, z, d2. auto.
Qed.
Lemma keys_ok_snd d1 k x y d2 : keys_ok (d1 ++ (k, x) :: d2) -> keys_ok (d1 ++ (k, y) :: d2).
Proof. unfold keys_ok. rewrite !Forall_app, !Forall_cons_iff. tauto. Qed.
Lemma apart_snd d1 k x y d2 : apart (d1 ++ (k, x) :: d2) -> apart (d1 ++ (k, y) :: d2).
Proof.
  unfold apart. induction d1 as [|a d1 IH]; cbn [app]; inversion 1 as [|? ? A B]; subst; constructor; auto.
  rewrite Forall_app, Forall_cons_iff in *. tauto.
Qed.
Lemma apart_snoc d k x : apart d -> (forall k' y, In (k', y) d -> ~ same_key k k') -> apart (d ++ [(k, x)]).
Proof.
  unfold apart. induction 1 as [|a l A B IH]; cbn [app]; intros N; [constructor; constructor|]. constructor.
  - apply Forall_app. split; [exact A|]. constructor; [|constructor]. cbn [fst]. destruct a as [k' y]. apply (N k' y). left. reflexivity.
  - apply IH. intros k' y J. apply (N k' y). right. exact J.
Qed.
Lemma collect_facts ps d : collect ps d -> keys_ok ps -> keys_ok d /\ apart d /\ gather ps [] = d.
Proof.
  induction 1 as [|ps d k x C IH N|ps d1 d2 k k' x y C IH S]; intros K.
  - repeat split; constructor.
  - apply Forall_app in K as [K1 K2]. inversion K2; subst. destruct (IH K1) as (A & B & E). split; [apply Forall_app; auto|].
    split; [apply apart_snoc; assumption|]. unfold gather in *. rewrite fold_left_app, E. cbn [fold_left fst snd]. apply vset_new; assumption.
  - apply Forall_app in K as [K1 K2]. inversion K2; subst. destruct (IH K1) as (A & B & E). split; [eapply keys_ok_snd; exact A|].
    split; [eapply apart_snd; exact B|]. unfold gather in *. rewrite fold_left_app, E. cbn [fold_left fst snd]. apply vset_again; assumption.
Qed.
Lemma gather_collect ps : keys_ok ps -> collect ps (gather ps []).
Proof.
  induction ps as [|[k x] ps IH] using rev_ind; intros K; [constructor|]. apply Forall_app in K as [K1 K2]. inversion K2; subst.
  specialize (IH K1). destruct (collect_facts ps _ IH K1) as (A & B & _). unfold gather in *. rewrite fold_left_app. cbn [fold_left fst snd].
  destruct (vset_cases k x (fold_left (fun d kv => vset (fst kv) (snd kv) d) ps [])) as [[N ->]|(d1 & k' & y & d2 & E & S & ->)]; [assumption|assumption| |].
  - constructor; assumption.
  - rewrite E in IH. eapply collect_again; eassumption.
Qed.
Lemma collect_iff ps d : keys_ok ps -> collect ps d <-> gather ps [] = d.
Proof. intros K. split; [intros C; apply (collect_facts ps d C K)|intros <-; apply gather_collect; exact K]. Qed.
