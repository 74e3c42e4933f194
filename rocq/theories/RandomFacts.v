(** * RandomFacts: every output of the generator is determined by three earlier ones. *)
From Coq Require Import String Ascii List ZArith Bool Lia.
From Verif Require Import PyBase Rawsocket Encoding EncodingFacts Auth Random SpecRandom.
Import ListNotations.
Local Open Scope Z_scope.
Local Open Scope list_scope.

(** ** Tempering can be undone *)
Definition word (w : Z) : Prop := 0 <= w < 2 ^ 32.
Lemma word_bits w n : word w -> 32 <= n -> Z.testbit w n = false.
Proof.
  intros [A B] N. destruct (Z.eq_dec w 0) as [->|Z0]; [apply Z.bits_0|]. apply Z.bits_above_log2; [lia|]. apply Z.log2_lt_pow2; [lia|].
  apply Z.lt_le_trans with (2 ^ 32); [exact B|]. apply Z.pow_le_mono_r; lia.
Qed.
Lemma bits_word w : 0 <= w -> (forall n, 32 <= n -> Z.testbit w n = false) -> word w.
Proof.
  intros A H. split; [exact A|]. destruct (Z.eq_dec w 0) as [->|Z0]; [lia|]. apply Z.log2_lt_pow2; [lia|].
  destruct (Z.ltb_spec (Z.log2 w) 32) as [L|L]; [exact L|]. specialize (H _ L). rewrite Z.bit_log2 in H by lia. discriminate.
Qed.
Lemma word_lxor a b : word a -> word b -> word (Z.lxor a b).
Proof.
  intros A B. apply bits_word; [apply Z.lxor_nonneg; unfold word in *; lia|]. intros n N. rewrite Z.lxor_spec, !word_bits by auto. reflexivity.
Qed.
Lemma word_shiftr a k : word a -> 0 <= k -> word (Z.shiftr a k).
Proof.
  intros A K. apply bits_word; [apply Z.shiftr_nonneg; unfold word in *; lia|]. intros n N. rewrite Z.shiftr_spec by lia. apply word_bits; [exact A|lia].
Qed.
Lemma word_land a m : word m -> word (Z.land a m).
Proof.
  intros M. apply bits_word; [apply Z.land_nonneg; unfold word in M; lia|]. intros n N. rewrite Z.land_spec, (word_bits m) by auto. apply andb_false_r.
Qed.
Lemma word_lor a b : word a -> word b -> word (Z.lor a b).
Proof.
  intros A B. apply bits_word; [apply Z.lor_nonneg; unfold word in *; lia|]. intros n N. rewrite Z.lor_spec, !word_bits by auto. reflexivity.
Qed.
Lemma word_ext a b : word a -> word b -> (forall n, 0 <= n < 32 -> Z.testbit a n = Z.testbit b n) -> a = b.
Proof.
  intros A B H. apply Z.bits_inj'. intros n N. destruct (Z.ltb_spec n 32); [apply H; lia|]. rewrite !word_bits by (auto; lia). reflexivity.
Qed.
Lemma undo_right_ok k y : 0 < k -> word y -> forall n, word (undo_right n k (Z.lxor y (Z.shiftr y k))) /\
  forall i, 32 - k * (Z.of_nat n + 1) <= i -> 0 <= i -> Z.testbit (undo_right n k (Z.lxor y (Z.shiftr y k))) i = Z.testbit y i.
Proof.
  intros K Y n. assert (Y' : word (Z.lxor y (Z.shiftr y k))) by (apply word_lxor; [exact Y|apply word_shiftr; [exact Y|lia]]).
  induction n as [|n [W IH]].
  - split; [exact Y'|]. intros i I I0. cbn [undo_right]. rewrite Z.lxor_spec, Z.shiftr_spec, (word_bits y (i + k)) by (auto; lia). apply xorb_false_r.
  - cbn [undo_right]. split; [apply word_lxor; [exact Y'|apply word_shiftr; [exact W|lia]]|]. intros i I I0.
    rewrite (Z.lxor_spec (Z.lxor _ _)), (Z.lxor_spec y), !Z.shiftr_spec by lia. rewrite IH by nia. rewrite xorb_assoc, xorb_nilpotent. apply xorb_false_r.
Qed.
Lemma undo_right_word n k y : 0 < k -> word y -> 32 <= k * (Z.of_nat n + 1) -> undo_right n k (Z.lxor y (Z.shiftr y k)) = y.
Proof. intros K Y N. destruct (undo_right_ok k y K Y n) as [W H]. apply word_ext; [exact W|exact Y|]. intros i I. apply H; lia. Qed.
Lemma undo_left_ok k m y : 0 < k -> word m -> word y -> forall n, word (undo_left n k m (Z.lxor y (Z.land (Z.shiftl y k) m))) /\
  forall i, 0 <= i < k * (Z.of_nat n + 1) -> Z.testbit (undo_left n k m (Z.lxor y (Z.land (Z.shiftl y k) m))) i = Z.testbit y i.
Proof.
  intros K M Y n. assert (Y' : word (Z.lxor y (Z.land (Z.shiftl y k) m))) by (apply word_lxor; [exact Y|apply word_land; exact M]).
  induction n as [|n [W IH]].
  - split; [exact Y'|]. intros i I. cbn [undo_left]. rewrite Z.lxor_spec, Z.land_spec, Z.shiftl_spec_low by lia. apply xorb_false_r.
  - cbn [undo_left]. split; [apply word_lxor; [exact Y'|apply word_land; exact M]|]. intros i I.
    rewrite (Z.lxor_spec (Z.lxor _ _)), (Z.lxor_spec y), !Z.land_spec, !Z.shiftl_spec by lia.
    destruct (Z.ltb_spec i k) as [L|L].
    + rewrite !(Z.testbit_neg_r _ (i - k)) by lia. cbn. rewrite !xorb_false_r. reflexivity.
    + rewrite IH by nia. rewrite xorb_assoc, xorb_nilpotent. apply xorb_false_r.
Qed.
Lemma undo_left_word n k m y : 0 < k -> word m -> word y -> 32 <= k * (Z.of_nat n + 1) -> undo_left n k m (Z.lxor y (Z.land (Z.shiftl y k) m)) = y.
Proof. intros K M Y N. destruct (undo_left_ok k m y K M Y n) as [W H]. apply word_ext; [exact W|exact Y|]. intros i I. apply H; lia. Qed.
Lemma mask1 : word 0x9d2c5680. Proof. split; reflexivity || discriminate. Qed.
Lemma mask2 : word 0xefc60000. Proof. split; reflexivity || discriminate. Qed.
Lemma mask3 : word 0x9908b0df. Proof. split; reflexivity || discriminate. Qed.
Lemma temper_parts y : word y -> let y1 := Z.lxor y (Z.shiftr y 11) in let y2 := Z.lxor y1 (Z.land (Z.shiftl y1 7) 0x9d2c5680) in
  let y3 := Z.lxor y2 (Z.land (Z.shiftl y2 15) 0xefc60000) in word y1 /\ word y2 /\ word y3 /\ word (temper y).
Proof.
  intros Y y1 y2 y3. assert (A : word y1) by (apply word_lxor; [exact Y|apply word_shiftr; [exact Y|lia]]).
  assert (B : word y2) by (apply word_lxor; [exact A|apply word_land, mask1]). assert (C : word y3) by (apply word_lxor; [exact B|apply word_land, mask2]).
  repeat split; try apply A; try apply B; try apply C; apply (word_lxor y3 (Z.shiftr y3 18) C (word_shiftr y3 18 C ltac:(lia))).
Qed.
Lemma untemper_temper y : word y -> untemper (temper y) = y.
Proof.
  intros Y. destruct (temper_parts y Y) as (A & B & C & _). unfold untemper, temper.
  rewrite (undo_right_word 1 18) by (auto; lia). rewrite (undo_left_word 2 15) by (auto using mask2; lia).
  rewrite (undo_left_word 4 7) by (auto using mask1; lia). apply (undo_right_word 2 11); auto; lia.
Qed.
Lemma temper_word y : word y -> word (temper y). Proof. intros Y. apply (temper_parts y Y). Qed.
Lemma mix_word a b : word a -> word b -> word (tw_mix a b).
Proof.
  intros A B. unfold tw_mix. apply word_lxor.
  - apply word_shiftr; [|lia]. apply word_lor; [apply word_land; split; reflexivity || discriminate|apply word_land; split; reflexivity || discriminate].
  - destruct (Z.odd _); [exact mask3|split; reflexivity || discriminate].
Qed.

Lemma temper_is y : temper y = mt_temper y.
Proof. unfold temper, mt_temper. rewrite !Z.shiftr_div_pow2, !Z.shiftl_mul_pow2 by lia. reflexivity. Qed.
Lemma mix_is a b : word a -> word b -> tw_mix a b = mt_mix a b.
Proof.
  intros A B. unfold tw_mix, mt_mix. rewrite Z.shiftr_div_pow2 by lia. change (2 ^ 1) with 2.
  assert (E : Z.lor (Z.land a 0x80000000) (Z.land b 0x7fffffff) = a / 2 ^ 31 * 2 ^ 31 + b mod 2 ^ 31).
  { change 0x7fffffff with (Z.ones 31). rewrite (Z.land_ones b 31) by lia.
    assert (U : Z.land a 0x80000000 = a / 2 ^ 31 * 2 ^ 31).
    { rewrite <- Z.shiftl_mul_pow2, <- Z.shiftr_div_pow2 by lia. apply Z.bits_inj'. intros n N. rewrite Z.land_spec, Z.shiftl_spec by lia. change 0x80000000 with (2 ^ 31).
      rewrite Z.pow2_bits_eqb by lia. destruct (Z.eqb_spec 31 n) as [<-|D].
      - change (31 - 31) with 0. rewrite Z.shiftr_spec by lia. apply andb_true_r.
      - rewrite andb_false_r. symmetry. destruct (Z.ltb_spec n 31) as [L|L]; [apply Z.testbit_neg_r; lia|]. rewrite Z.shiftr_spec by lia. apply word_bits; [exact A|lia]. }
    rewrite U. rewrite Z.add_nocarry_lxor.
    - symmetry. apply Z.lxor_lor. apply Z.bits_inj'. intros n N. rewrite Z.land_spec, Z.bits_0. rewrite <- Z.shiftl_mul_pow2 by lia. rewrite Z.shiftl_spec by lia.
      destruct (Z.ltb_spec n 31) as [L|L]; [rewrite Z.testbit_neg_r by lia; reflexivity|]. rewrite Z.mod_pow2_bits_high by lia. apply andb_false_r.
    - apply Z.bits_inj'. intros n N. rewrite Z.land_spec, Z.bits_0. rewrite <- Z.shiftl_mul_pow2 by lia. rewrite Z.shiftl_spec by lia.
      destruct (Z.ltb_spec n 31) as [L|L]; [rewrite Z.testbit_neg_r by lia; reflexivity|]. rewrite Z.mod_pow2_bits_high by lia. apply andb_false_r. }
  rewrite E. f_equal. rewrite Zmod_odd. destruct (Z.odd _); reflexivity.
Qed.

(** ** The sequence of words behind the state *)
Definition slide (w : list Z) : list Z := tl w ++ [Z.lxor (nth 397 w 0) (tw_mix (nth 0 w 0) (nth 1 w 0))].
Fixpoint window (w : list Z) (k : nat) : list Z := match k with O => w | S k' => slide (window w k') end.
Definition behind (w : list Z) (k : nat) : Z := nth 0 (window w k) 0.
Lemma slide_length w : length w = 624%nat -> length (slide w) = 624%nat.
Proof. intros L. unfold slide. rewrite app_length. destruct w; [discriminate|]. cbn [tl length] in *. lia. Qed.
Lemma window_length w k : length w = 624%nat -> length (window w k) = 624%nat.
Proof. intros L. induction k; [exact L|]. apply slide_length, IHk. Qed.
Lemma nth_tl i (w : list Z) : nth i (tl w) 0 = nth (S i) w 0. Proof. destruct w, i; reflexivity. Qed.
Lemma nth_slide w i : length w = 624%nat -> (i < 623)%nat -> nth i (slide w) 0 = nth (S i) w 0.
Proof. intros L I. unfold slide. rewrite app_nth1; [apply nth_tl|]. destruct w; [discriminate|]. cbn [tl length] in *. lia. Qed.
Lemma nth_slide_last w : length w = 624%nat -> nth 623 (slide w) 0 = Z.lxor (nth 397 w 0) (tw_mix (nth 0 w 0) (nth 1 w 0)).
Proof.
  intros L. unfold slide. assert (T : length (tl w) = 623%nat) by (destruct w; [discriminate|]; cbn [tl length] in *; lia).
  rewrite app_nth2 by lia. rewrite T. replace (623 - 623)%nat with 0%nat by lia. reflexivity.
Qed.
Lemma nth_window w k i : length w = 624%nat -> (i < 624)%nat -> nth i (window w k) 0 = behind w (k + i).
Proof.
  intros L. unfold behind. revert k. induction i as [|i IH]; intros k I; [rewrite Nat.add_0_r; reflexivity|].
  replace (k + S i)%nat with (S k + i)%nat by lia. rewrite <- IH by lia. cbn [window]. rewrite nth_slide; [reflexivity|apply window_length, L|lia].
Qed.
Lemma behind_start w i : length w = 624%nat -> (i < 624)%nat -> behind w i = nth i w 0.
Proof. intros L I. symmetry. exact (nth_window w 0 i L I). Qed.
Lemma behind_rec w k : length w = 624%nat -> behind w (k + 624) = Z.lxor (behind w (k + 397)) (tw_mix (behind w k) (behind w (k + 1))).
Proof.
  intros L. replace (k + 624)%nat with (S k + 623)%nat by lia. rewrite <- nth_window by (auto; lia). cbn [window]. rewrite nth_slide_last by (apply window_length, L).
  rewrite !nth_window by (auto; lia). rewrite Nat.add_0_r. reflexivity.
Qed.
Lemma slide_words w : length w = 624%nat -> Forall word w -> Forall word (slide w).
Proof.
  intros L H. unfold slide. rewrite Forall_forall in H. assert (N : forall i, (i < 624)%nat -> word (nth i w 0)) by (intros i I; apply H, nth_In; lia).
  apply Forall_app. split; [apply Forall_forall; intros x X; apply H; destruct w; [destruct X|right; exact X]|]. constructor; [|constructor]. apply word_lxor; [apply N; lia|apply mix_word; apply N; lia].
Qed.
Lemma window_words w k : length w = 624%nat -> Forall word w -> Forall word (window w k).
Proof. intros L H. induction k; [exact H|]. apply slide_words; [apply window_length, L|exact IHk]. Qed.
Lemma behind_word w k : length w = 624%nat -> Forall word w -> word (behind w k).
Proof. intros L H. pose proof (window_words w k L H) as W. rewrite Forall_forall in W. apply W, nth_In. rewrite window_length by exact L. lia. Qed.
Lemma window_add w a b : window w (a + b) = window (window w a) b.
Proof. rewrite Nat.add_comm. induction b; cbn [Nat.add window]; [reflexivity|rewrite IHb; reflexivity]. Qed.
Lemma behind_add w a b : behind w (a + b) = behind (window w a) b. Proof. unfold behind. rewrite window_add. reflexivity. Qed.

(** Renewing in place is 624 steps of the sequence. *)
Lemma set_nth_length i v l : (i < length l)%nat -> length (set_nth i v l) = length l.
Proof. intros I. unfold set_nth. rewrite app_length, firstn_length. cbn [length]. rewrite skipn_length. lia. Qed.
Lemma nth_set_nth i v l j : (i < length l)%nat -> nth j (set_nth i v l) 0 = if (j =? i)%nat then v else nth j l 0.
Proof.
  intros I. unfold set_nth. destruct (Nat.eqb_spec j i) as [->|N].
  - rewrite app_nth2; rewrite firstn_length_le by lia; [|lia]. rewrite Nat.sub_diag. reflexivity.
  - destruct (Nat.lt_ge_cases j i) as [L|L].
    + rewrite app_nth1 by (rewrite firstn_length_le; lia). rewrite <- (firstn_skipn i l) at 2. rewrite app_nth1 by (rewrite firstn_length_le; lia). reflexivity.
    + rewrite app_nth2; rewrite firstn_length_le by lia; [|lia]. destruct (j - i)%nat as [|d] eqn:D; [lia|]. cbn [nth].
      rewrite <- (firstn_skipn (S i) l) at 2. rewrite app_nth2; rewrite firstn_length_le by lia; [|lia]. f_equal. lia.
Qed.
Lemma turns_ok w n : length w = 624%nat -> (n <= 624)%nat ->
  length (fold_left tw_turn (seq 0 n) w) = 624%nat /\
  forall i, (i < 624)%nat -> nth i (fold_left tw_turn (seq 0 n) w) 0 = behind w (if (i <? n)%nat then 624 + i else i).
Proof.
  intros L. induction n as [|n IH]; intros N.
  - split; [exact L|]. intros i I. cbn. symmetry. apply behind_start; auto.
  - destruct IH as [LL IH]; [lia|]. rewrite seq_S, fold_left_app. change (0 + n)%nat with n. cbn [fold_left]. set (m := fold_left tw_turn (seq 0 n) w) in *.
    unfold tw_turn at 1. unfold tw_turn, tw_size, tw_shift. split; [rewrite set_nth_length; [exact LL|lia]|]. intros i I. rewrite nth_set_nth by lia.
    destruct (Nat.eqb_spec i n) as [->|D].
    + destruct (Nat.ltb_spec n (S n)) as [_|Q]; [|lia]. rewrite (Nat.add_comm 624). rewrite behind_rec by exact L. f_equal; [|f_equal].
      * rewrite IH by (apply Nat.mod_upper_bound; lia). f_equal. destruct (Nat.lt_ge_cases (n + 397) 624) as [S1|S1].
        -- rewrite Nat.mod_small by lia. destruct (Nat.ltb_spec (n + 397) n); lia.
        -- replace (n + 397)%nat with ((n - 227) + 1 * 624)%nat at 1 2 by lia. rewrite Nat.mod_add, Nat.mod_small by lia. destruct (Nat.ltb_spec (n - 227) n); lia.
      * rewrite IH by lia. f_equal. destruct (Nat.ltb_spec n n); lia.
      * rewrite IH by (apply Nat.mod_upper_bound; lia). f_equal. destruct (Nat.lt_ge_cases (n + 1) 624) as [S1|S1].
        -- rewrite Nat.mod_small by lia. destruct (Nat.ltb_spec (n + 1) n); lia.
        -- replace (n + 1)%nat with (0 + 1 * 624)%nat at 1 2 by lia. rewrite Nat.mod_add, Nat.mod_small by lia. destruct (Nat.ltb_spec 0 n); lia.
    + rewrite IH by exact I. f_equal. destruct (Nat.ltb_spec i n), (Nat.ltb_spec i (S n)); lia.
Qed.
Lemma window_unique w m k : length w = 624%nat -> length m = 624%nat -> (forall i, (i < 624)%nat -> nth i m 0 = behind w (k + i)) -> m = window w k.
Proof.
  intros L A B. apply (nth_ext _ _ 0 0); [rewrite window_length by exact L; exact A|]. intros i I. rewrite A in I. rewrite B by exact I. symmetry. apply nth_window; assumption.
Qed.
Lemma renew_window w : length w = 624%nat -> tw_renew w = window w tw_size.
Proof.
  intros L. unfold tw_renew. assert (N : (tw_size <= 624)%nat) by apply le_n. assert (E : forall i, (i < 624)%nat -> (i <? tw_size)%nat = true) by (intros i I; apply Nat.ltb_lt; exact I).
  generalize dependent tw_size. intros n N E. destruct (turns_ok w n L N) as [A B]. apply window_unique; [exact L|exact A|]. intros i I. rewrite B, E by exact I. f_equal.
  f_equal. pose proof (E 623%nat). destruct (Nat.ltb_spec 623 n); lia.
Qed.

(** ** What comes out *)
Lemma size_is : tw_size = 624%nat. Proof. reflexivity. Qed.
Local Opaque window tw_renew tw_size.
Fixpoint after (k : nat) (t : twister) : twister := match k with O => t | S k' => after k' (snd (genrand t)) end.
Definition output (t : twister) (k : nat) : Z := fst (genrand (after k t)).
Lemma genrand_valid t : valid t -> valid (snd (genrand t)).
Proof.
  destruct t as [mt i]. intros (L & W & I). cbn [tw_words tw_index] in *. unfold genrand. cbn [tw_words tw_index]. pose proof size_is as SZ. destruct (Nat.leb_spec tw_size i) as [G|G].
  - rewrite renew_window by exact L. cbn [snd]. split; [|split]; cbn [tw_words tw_index]; [apply window_length, L|apply window_words; [exact L|exact W]|lia].
  - cbn [snd]. split; [|split]; cbn [tw_words tw_index]; [exact L|exact W|lia].
Qed.
Lemma after_valid k t : valid t -> valid (after k t).
Proof. revert t. induction k; intros t V; [exact V|]. apply IHk, genrand_valid, V. Qed.
Lemma output_behind k t : valid t -> output t k = temper (behind (tw_words t) (tw_index t + k)).
Proof.
  unfold output. revert t. induction k as [|k IH]; intros [mt i] V; pose proof V as (L & W & I); cbn [tw_words tw_index after] in *.
  - unfold genrand. cbn [tw_words tw_index]. pose proof size_is as SZ. rewrite Nat.add_0_r. destruct (Nat.leb_spec tw_size i) as [G|G].
    + replace i with tw_size by lia. cbn [fst]. rewrite renew_window by exact L. reflexivity.
    + cbn [fst]. rewrite behind_start by auto. reflexivity.
  - rewrite IH by (apply genrand_valid; exact V). f_equal. unfold genrand. cbn [tw_words tw_index]. pose proof size_is as SZ. destruct (Nat.leb_spec tw_size i) as [G|G].
    + replace i with tw_size by lia. cbn [snd tw_words tw_index]. rewrite renew_window by exact L. rewrite <- behind_add. f_equal.
    + cbn [snd tw_words tw_index]. f_equal. lia.
Qed.
Lemma output_word t k : valid t -> word (output t k).
Proof. intros V. rewrite output_behind by exact V. apply temper_word. destruct V as (L & W & _). apply behind_word; auto. Qed.
Lemma output_rec t k : valid t ->
  output t (k + 624) = mt_temper (Z.lxor (untemper (output t (k + 397))) (mt_mix (untemper (output t k)) (untemper (output t (k + 1))))).
Proof.
  intros V. rewrite <- temper_is. rewrite !output_behind by exact V. destruct V as (L & W & _). rewrite !untemper_temper by (apply behind_word; auto).
  rewrite <- mix_is by (apply behind_word; auto). replace (tw_index t + (k + 624))%nat with ((tw_index t + k) + 624)%nat by lia. rewrite behind_rec by exact L. rewrite <- !Nat.add_assoc. reflexivity.
Qed.
Lemma after_add a b t : after (a + b) t = after b (after a t).
Proof. revert t. induction a; intros t; [reflexivity|]. cbn [Nat.add after]. apply IHa. Qed.
Lemma after_snd k t : snd (genrand (after k t)) = after (S k) t.
Proof. replace (S k) with (k + 1)%nat by lia. rewrite after_add. reflexivity. Qed.
Lemma genwords_ok n t : genwords n t = (map (output t) (seq 0 n), after n t).
Proof.
  revert t. induction n as [|n IH]; intros t; [reflexivity|]. cbn [genwords seq map after]. destruct (genrand t) as [w t1] eqn:E. rewrite IH. cbn [snd].
  f_equal. f_equal; [unfold output; cbn [after]; rewrite E; reflexivity|]. rewrite <- seq_shift, map_map. apply map_ext. intros k. unfold output. cbn [after]. rewrite E. reflexivity.
Qed.
Lemma output_after a t k : output (after a t) k = output t (a + k). Proof. unfold output. rewrite after_add. reflexivity. Qed.

(** Forecasting. *)
Lemma map_output_seq t a n : map (output (after a t)) (seq 0 n) = map (output t) (seq a n).
Proof.
  revert a. induction n as [|n IH]; intros a; [reflexivity|]. cbn [seq map]. rewrite output_after, Nat.add_0_r. f_equal. rewrite <- (IH (S a)).
  rewrite <- seq_shift, map_map. apply map_ext. intros k. rewrite !output_after. f_equal. lia.
Qed.
Lemma forecast_word_ok t k : valid t -> forecast_word (map (output t) (seq k 624)) = output t (k + 624).
Proof.
  intros V. unfold forecast_word. rewrite output_rec by exact V.
  assert (N : forall i, (i < 624)%nat -> nth i (map (output t) (seq k 624)) 0 = output t (k + i)).
  { intros i I. rewrite (nth_indep _ 0 (output t 0)) by (rewrite map_length, seq_length; exact I). rewrite map_nth, seq_nth by exact I. reflexivity. }
  rewrite !N by lia. rewrite Nat.add_0_r. reflexivity.
Qed.
Lemma tl_map_seq {A} (g : nat -> A) k L : (0 < L)%nat -> tl (map g (seq k L)) ++ [g (k + L)%nat] = map g (seq (S k) L).
Proof. destruct L as [|M]; [lia|]. intros _. cbn [seq map tl]. change (g (S k) :: map g (seq (S (S k)) M)) with (map g (seq (S k) (S M))).
  rewrite seq_S, map_app. cbn [map]. replace (S k + M)%nat with (k + S M)%nat by lia. reflexivity. Qed.
Lemma forecast_words_ok n t k : valid t -> forecast_words n (map (output t) (seq k 624)) = map (output t) (seq (k + 624) n).
Proof.
  intros V. pose proof (fun k => forecast_word_ok t k V) as F. assert (P : (0 < 624)%nat) by lia. revert F P. generalize 624%nat. intros L F P. revert k.
  induction n as [|n IH]; intros k; [reflexivity|]. cbn [forecast_words]. rewrite F. cbv zeta. rewrite tl_map_seq by exact P. rewrite IH. reflexivity.
Qed.

(** ** Texts *)
Lemma byte_Z_of z : 0 <= z < 256 -> byte_Z (byte_of z) = z.
Proof. intros H. unfold byte_Z, byte_of. rewrite N_ascii_embedding by lia. rewrite Z2N.id by lia. reflexivity. Qed.
Lemma octet_range w : 0 <= Z.land w 255 < 256.
Proof. change 255 with (Z.ones 8). rewrite Z.land_ones by lia. apply Z.mod_pos_bound. reflexivity. Qed.
Lemma words_of_word w b : word w -> words_of (le_word w ++ b) = w :: words_of b.
Proof.
  intros W. cbn [le_word map app words_of]. f_equal. rewrite !byte_Z_of by apply octet_range. change 255 with (Z.ones 8). rewrite !Z.land_ones, !Z.shiftr_div_pow2 by lia.
  unfold word in W. change (2 ^ 0) with 1. change (2 ^ 8) with 256. change (2 ^ 16) with 65536. change (2 ^ 24) with 16777216. change (256 ^ 2) with 65536. change (256 ^ 3) with 16777216. change (2 ^ 32) with 4294967296 in W.
  rewrite Z.div_1_r. pose proof (Z.div_mod w 256). pose proof (Z.div_mod (w / 256) 256). pose proof (Z.div_mod (w / 65536) 256).
  assert (A : w / 65536 = w / 256 / 256) by (rewrite Z.div_div by lia; reflexivity). assert (B : w / 16777216 = w / 65536 / 256) by (rewrite Z.div_div by lia; reflexivity).
  assert (C : w / 16777216 mod 256 = w / 16777216). { apply Z.mod_small. split; [apply Z.div_pos; lia|apply Z.div_lt_upper_bound; lia]. }
  lia.
Qed.
Lemma words_of_words ws : Forall word ws -> words_of (flat_map le_word ws) = ws.
Proof. induction 1 as [|w ws W _ IH]; [reflexivity|]. cbn [flat_map]. rewrite words_of_word by exact W. rewrite IH. reflexivity. Qed.
Definition text (ws : list Z) : string := decode_str (hexlify (flat_map le_word ws)).
Lemma words_in_text ws : Forall word ws -> words_in (text ws) = ws.
Proof. intros W. unfold words_in, text. rewrite unhexlify_hexlify. apply words_of_words, W. Qed.
Lemma outputs_word t a n : valid t -> Forall word (map (output t) (seq a n)).
Proof. intros V. apply Forall_forall. intros x I. apply in_map_iff in I. destruct I as (k & <- & _). apply output_word, V. Qed.

(** A generator of texts of [n] words. *)
Definition texter (n : nat) (f : twister -> string * twister) : Prop := forall t, f t = (text (map (output t) (seq 0 n)), after n t).
Lemma draws_text n f m t : texter n f -> draws f m t = map (fun j => text (map (output t) (seq (n * j) n))) (seq 0 m).
Proof.
  intros T. revert t. induction m as [|m IH]; intros t; [reflexivity|]. cbn [draws seq map]. rewrite T, IH. rewrite Nat.mul_0_r. f_equal.
  rewrite <- seq_shift, map_map. apply map_ext. intros j. f_equal.
  assert (E : forall a, map (output (after n t)) (seq a n) = map (output t) (seq (n + a) n)).
  { intros a. rewrite <- map_output_seq, <- after_add, map_output_seq. reflexivity. }
  rewrite E. do 2 f_equal. lia.
Qed.
Lemma flat_map_words n t a m : valid t -> flat_map words_in (map (fun j => text (map (output t) (seq (n * j) n))) (seq a m)) = map (output t) (seq (n * a) (n * m)).
Proof.
  intros V. revert a. induction m as [|m IH]; intros a; [rewrite Nat.mul_0_r; reflexivity|]. cbn [seq map flat_map]. rewrite words_in_text by (apply outputs_word, V). rewrite IH.
  replace (n * S m)%nat with (n + n * m)%nat by lia. rewrite seq_app, map_app. do 3 f_equal. lia.
Qed.
Lemma firstn_skipn_map {A} (g : nat -> A) a m total : (a + m <= total)%nat -> firstn m (skipn a (map g (seq 0 total))) = map g (seq a m).
Proof.
  intros H. rewrite skipn_map, firstn_map. f_equal. replace total with (a + (m + (total - a - m)))%nat by lia. rewrite seq_app, skipn_app, seq_length.
  rewrite skipn_all2 by (rewrite seq_length; lia). rewrite Nat.sub_diag. cbn [skipn app]. rewrite seq_app, firstn_app, seq_length, Nat.sub_diag.
  cbn [firstn]. rewrite app_nil_r. cbn [Nat.add]. rewrite firstn_all2 by (rewrite seq_length; lia). reflexivity.
Qed.
Lemma foretold n m f : texter n f -> (n * m = 624)%nat -> forall t k, valid t ->
  forecast n (firstn m (skipn k (draws f (k + m + 1) t))) = nth (k + m) (draws f (k + m + 1) t) EmptyString.
Proof.
  intros T NM t k V. rewrite (draws_text n f) by exact T. rewrite firstn_skipn_map by lia. unfold forecast. rewrite flat_map_words by exact V.
  rewrite NM. rewrite forecast_words_ok by exact V. set (g := fun j => _).
  rewrite (nth_indep _ _ (g 0%nat)) by (rewrite map_length, seq_length; lia). rewrite map_nth, seq_nth by lia. unfold g, text. change (0 + (k + m))%nat with (k + m)%nat. rewrite Nat.mul_add_distr_l, NM. reflexivity.
Qed.
Lemma cryptosign_texter : texter 8 draw_cryptosign_challenge.
Proof. intros t. unfold draw_cryptosign_challenge, randbytes. rewrite genwords_ok. reflexivity. Qed.
Lemma wampcra_texter : texter 4 draw_wampcra_nonce.
Proof. intros t. unfold draw_wampcra_nonce, randbytes. rewrite genwords_ok. reflexivity. Qed.
Lemma cryptosign_foretold t k : valid t ->
  forecast 8 (firstn 78 (skipn k (draws draw_cryptosign_challenge (k + 79) t))) = nth (k + 78) (draws draw_cryptosign_challenge (k + 79) t) EmptyString.
Proof. replace (k + 79)%nat with (k + 78 + 1)%nat by lia. apply foretold; [exact cryptosign_texter|reflexivity]. Qed.
Lemma wampcra_foretold t k : valid t ->
  forecast 4 (firstn 156 (skipn k (draws draw_wampcra_nonce (k + 157) t))) = nth (k + 156) (draws draw_wampcra_nonce (k + 157) t) EmptyString.
Proof. replace (k + 157)%nat with (k + 156 + 1)%nat by lia. apply foretold; [exact wampcra_texter|reflexivity]. Qed.

(** ** Session ids *)
Lemma session_id_range n t s t' : valid t -> draw_session_id n t = (Some s, t') -> 1 <= s <= 2 ^ 53 /\ valid t'.
Proof.
  revert t. induction n as [|n IH]; intros t V E; [discriminate|]. cbn [draw_session_id] in E. pose proof (output_word t 0 V) as LO. unfold output in LO. cbn [after] in LO.
  pose proof (genrand_valid t V) as V1. destruct (genrand t) as [lo t1]. cbn [fst snd] in *. pose proof (output_word t1 0 V1) as HI. unfold output in HI. cbn [after] in HI.
  pose proof (genrand_valid t1 V1) as V2. destruct (genrand t1) as [hi t2]. cbn [fst snd] in *.
  assert (R : 0 <= Z.lor lo (Z.shiftl (Z.shiftr hi 10) 32)) by (apply Z.lor_nonneg; split; [apply LO|apply Z.shiftl_nonneg, Z.shiftr_nonneg, HI]).
  cbv zeta in E. revert R E. generalize (Z.lor lo (Z.shiftl (Z.shiftr hi 10) 32)). intros r R E. destruct (Z.ltb_spec r (2 ^ 53)) as [L|L].
  - assert (s = 1 + r /\ t' = t2) as [-> ->] by (split; congruence). split; [lia|exact V2].
  - eapply IH; [exact V2|exact E].
Qed.

(** ** A copy of the generator *)
Definition alike (t u : twister) : Prop := forall k, output t k = output u k.
Lemma alike_step t u : alike t u -> fst (genrand t) = fst (genrand u) /\ alike (snd (genrand t)) (snd (genrand u)).
Proof. intros H. split; [exact (H 0%nat)|]. intros k. exact (H (S k)). Qed.
Lemma alike_after n t u : alike t u -> alike (after n t) (after n u).
Proof. intros H k. rewrite !output_after. apply H. Qed.
Lemma alike_text n f t u : texter n f -> alike t u -> fst (f t) = fst (f u) /\ alike (snd (f t)) (snd (f u)).
Proof. intros T H. rewrite !T. cbn [fst snd]. split; [f_equal; apply map_ext; exact H|apply alike_after, H]. Qed.
Lemma alike_session n t u : alike t u -> fst (draw_session_id n t) = fst (draw_session_id n u) /\ alike (snd (draw_session_id n t)) (snd (draw_session_id n u)).
Proof.
  revert t u. induction n as [|n IH]; intros t u H; [split; [reflexivity|exact H]|]. cbn [draw_session_id]. apply alike_step in H. destruct H as [E H].
  destruct (genrand t) as [lo t1], (genrand u) as [lo' u1]. cbn [fst snd] in *. subst lo'. apply alike_step in H. destruct H as [E H].
  destruct (genrand t1) as [hi t2], (genrand u1) as [hi' u2]. cbn [fst snd] in *. subst hi'. cbv zeta. destruct (_ <? 2 ^ 53); [split; [reflexivity|exact H]|apply IH, H].
Qed.
Lemma alike_give a t u : alike t u -> fst (give a t) = fst (give a u) /\ alike (snd (give a t)) (snd (give a u)).
Proof.
  intros H. destruct a as [| |n]; cbn [give].
  - pose proof (alike_text _ _ t u cryptosign_texter H) as [A B]. destruct (draw_cryptosign_challenge t), (draw_cryptosign_challenge u). cbn [fst snd] in *. split; [congruence|exact B].
  - pose proof (alike_text _ _ t u wampcra_texter H) as [A B]. destruct (draw_wampcra_nonce t), (draw_wampcra_nonce u). cbn [fst snd] in *. split; [congruence|exact B].
  - pose proof (alike_session n t u H) as [A B]. destruct (draw_session_id n t), (draw_session_id n u). cbn [fst snd] in *. split; [congruence|exact B].
Qed.
Lemma alike_serve asks t u : alike t u -> fst (serve asks t) = fst (serve asks u).
Proof.
  revert t u. induction asks as [|a asks IH]; intros t u H; [reflexivity|]. cbn [serve]. pose proof (alike_give a t u H) as [A B]. destruct (give a t) as [g t1], (give a u) as [g' u1]. cbn [fst snd] in *.
  specialize (IH _ _ B). destruct (serve asks t1), (serve asks u1). cbn [fst] in *. congruence.
Qed.
Definition ask_words (a : ask) : nat := match a with AskChallenge => 8 | AskNonce => 4 | AskSession _ => 0 end.
Definition is_text (a : ask) : bool := match a with AskSession _ => false | _ => true end.
Definition total (asks : list ask) : nat := fold_right (fun a n => (ask_words a + n)%nat) 0%nat asks.
Definition seen_words (seen : list given) : list Z := flat_map (fun g => match g with GivenText s => words_in s | GivenId _ => [] end) seen.
Lemma serve_words asks t : valid t -> forallb is_text asks = true ->
  seen_words (fst (serve asks t)) = map (output t) (seq 0 (total asks)) /\ snd (serve asks t) = after (total asks) t.
Proof.
  revert t. induction asks as [|a asks IH]; intros t V H; [split; reflexivity|]. cbn [forallb] in H. apply andb_prop in H. destruct H as [Ha H].
  assert (G : exists n, n = ask_words a /\ give a t = (GivenText (text (map (output t) (seq 0 n))), after n t)).
  { destruct a; [exists 8%nat|exists 4%nat|discriminate Ha]; (split; [reflexivity|]); cbn [give]; [rewrite cryptosign_texter|rewrite wampcra_texter]; reflexivity. }
  destruct G as (n & -> & G). cbn [serve]. rewrite G. destruct (IH (after (ask_words a) t) (after_valid _ _ V) H) as [A B]. destruct (serve asks _) as [gs t2]. cbn [fst snd] in *.
  cbn [total fold_right]. fold (total asks). split; [|rewrite after_add; exact B]. unfold seen_words in *. cbn [flat_map]. rewrite words_in_text by (apply outputs_word, V). rewrite A.
  rewrite seq_app, map_app. f_equal. apply map_output_seq.
Qed.
Lemma clone_alike t asks : valid t -> forallb is_text asks = true -> total asks = 624%nat -> alike (clone (fst (serve asks t))) (snd (serve asks t)).
Proof.
  intros V T N. destruct (serve_words asks t V T) as [A ->]. unfold clone. fold (seen_words (fst (serve asks t))). rewrite A, N. pose proof V as (L & W & I).
  assert (E : map untemper (map (output t) (seq 0 624)) = window (tw_words t) (tw_index t)).
  { rewrite map_map. assert (F : forall n, map (fun x => untemper (output t x)) (seq 0 n) = map (fun x => behind (tw_words t) (tw_index t + x)) (seq 0 n)).
    { intros n. apply map_ext. intros k. rewrite output_behind by exact V. apply untemper_temper, behind_word; auto. }
    rewrite F. apply window_unique; [exact L|rewrite map_length, seq_length; reflexivity|]. intros i K.
    set (g := fun x => behind (tw_words t) (tw_index t + x)). rewrite (nth_indep _ 0 (g 0%nat)) by (rewrite map_length, seq_length; exact K). rewrite map_nth, seq_nth by exact K. reflexivity. }
  rewrite E. intros k. rewrite output_after, !output_behind; [|exact V|].
  - cbn [tw_words tw_index]. rewrite <- behind_add. reflexivity.
  - split; [|split]; cbn [tw_words tw_index]; [apply window_length, L|apply window_words; [exact L|exact W]|lia].
Qed.
Lemma total_repeat n : total (repeat AskChallenge n) = (8 * n)%nat. Proof. induction n; cbn [repeat total fold_right ask_words]; [reflexivity|]. fold (total (repeat AskChallenge n)). lia. Qed.
Lemma total_repeat_nonce n : total (repeat AskNonce n) = (4 * n)%nat. Proof. induction n; cbn [repeat total fold_right ask_words]; [reflexivity|]. fold (total (repeat AskNonce n)). lia. Qed.
Lemma is_text_repeat a n : is_text a = true -> forallb is_text (repeat a n) = true.
Proof. intros H. induction n; [reflexivity|]. cbn [repeat forallb]. rewrite H. exact IHn. Qed.
Lemma challenges_clone t asks : valid t ->
  fst (serve asks (clone (fst (serve (repeat AskChallenge 78) t)))) = fst (serve asks (snd (serve (repeat AskChallenge 78) t))).
Proof. intros V. apply alike_serve, clone_alike; [exact V|apply is_text_repeat; reflexivity|apply total_repeat]. Qed.
Lemma nonces_clone t asks : valid t ->
  fst (serve asks (clone (fst (serve (repeat AskNonce 156) t)))) = fst (serve asks (snd (serve (repeat AskNonce 156) t))).
Proof. intros V. apply alike_serve, clone_alike; [exact V|apply is_text_repeat; reflexivity|apply total_repeat_nonce]. Qed.
Lemma serve_app a b t : serve (a ++ b) t = (let '(x, t1) := serve a t in let '(y, t2) := serve b t1 in (x ++ y, t2)).
Proof.
  revert t. induction a as [|k a IH]; intros t; cbn [app serve].
  - destruct (serve b t); reflexivity.
  - destruct (give k t) as [g t1]. rewrite IH. destruct (serve a t1) as [x t2]. destruct (serve b t2). reflexivity.
Qed.
Lemma session_valid n t : valid t -> valid (snd (draw_session_id n t)).
Proof.
  revert t. induction n as [|n IH]; intros t V; [exact V|]. cbn [draw_session_id]. pose proof (genrand_valid t V) as V1. destruct (genrand t) as [lo t1]. cbn [snd] in V1.
  pose proof (genrand_valid t1 V1) as V2. destruct (genrand t1) as [hi t2]. cbn [snd] in V2. cbv zeta. destruct (_ <? 2 ^ 53); [exact V2|apply IH, V2].
Qed.
Lemma give_valid a t : valid t -> valid (snd (give a t)).
Proof.
  intros V. destruct a as [| |n]; cbn [give].
  - rewrite cryptosign_texter. apply after_valid, V.
  - rewrite wampcra_texter. apply after_valid, V.
  - pose proof (session_valid n t V). destruct (draw_session_id n t). exact H.
Qed.
Lemma serve_valid asks t : valid t -> valid (snd (serve asks t)).
Proof.
  revert t. induction asks as [|a asks IH]; intros t V; [exact V|]. cbn [serve]. pose proof (give_valid a t V) as V1. destruct (give a t) as [g t1]. cbn [snd] in V1. pose proof (IH t1 V1) as V2. destruct (serve asks t1). exact V2.
Qed.
Lemma challenges_clone_any t history asks : valid t -> let t0 := snd (serve history t) in
  fst (serve asks (clone (fst (serve (repeat AskChallenge 78) t0)))) = fst (serve asks (snd (serve (repeat AskChallenge 78) t0))).
Proof. intros V t0. apply challenges_clone, serve_valid, V. Qed.
Lemma nonces_clone_any t history asks : valid t -> let t0 := snd (serve history t) in
  fst (serve asks (clone (fst (serve (repeat AskNonce 156) t0)))) = fst (serve asks (snd (serve (repeat AskNonce 156) t0))).
Proof. intros V t0. apply nonces_clone, serve_valid, V. Qed.

(** ** Form *)
Lemma text_form n f t : texter n f -> exists b, length b = (4 * n)%nat /\ unhexlify_str (fst (f t)) = Ok b /\ fst (f t) = decode_str (hexlify b).
Proof.
  intros T. rewrite T. cbn [fst]. exists (flat_map le_word (map (output t) (seq 0 n))). split; [|split; [apply unhexlify_hexlify|reflexivity]].
  assert (F : forall ws, length (flat_map le_word ws) = (4 * length ws)%nat) by (induction ws as [|w ws IH]; [reflexivity|]; cbn [flat_map length]; rewrite app_length, IH; cbn [le_word map length]; lia).
  rewrite F, map_length, seq_length. reflexivity.
Qed.
