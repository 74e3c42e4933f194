(** * Sha2Facts: Sha2.v computes SHA-2, HMAC and PBKDF2 as the standards (SpecSha2.v) define them.  Proofs only. *)
From Coq Require Import String Ascii List ZArith NArith Bool Lia.
From Verif Require Import PyBase Rawsocket Encoding EncodingFacts SpecBase64 Base64Facts Sha2 SpecSha2.
Import ListNotations.
Local Open Scope Z_scope.
Local Open Scope list_scope.

(** ** Bits *)
Lemma bits_length n x : length (bits n x) = n.
Proof. revert x. induction n as [|n IH]; intros x; cbn [bits]; [reflexivity|]. rewrite app_length, IH. cbn. lia. Qed.
Lemma bits_app a b x : bits (a + b) x = bits a (x / 2 ^ Z.of_nat b) ++ bits b x.
Proof.
  revert x. induction b as [|b IH]; intros x.
  - rewrite Nat.add_0_r, Z.div_1_r, app_nil_r. reflexivity.
  - rewrite Nat.add_succ_r. cbn [bits]. rewrite IH, app_assoc. do 3 f_equal. rewrite Z.div_div by lia. f_equal. rewrite Nat2Z.inj_succ, Z.pow_succ_r by lia. reflexivity.
Qed.
Lemma bits_mod n x : bits n (x mod 2 ^ Z.of_nat n) = bits n x.
Proof.
  revert x. induction n as [|n IH]; intros x; [reflexivity|]. cbn [bits]. rewrite Nat2Z.inj_succ, Z.pow_succ_r by lia.
  pose proof (Z.pow_pos_nonneg 2 (Z.of_nat n) ltac:(lia) ltac:(lia)) as P. set (q := 2 ^ Z.of_nat n) in *.
  rewrite Z.rem_mul_r by lia. f_equal.
  - rewrite <- (IH (x / 2)). f_equal. rewrite Z.add_comm, Z.mul_comm, Z.div_add_l by lia. rewrite Z.div_small with (a := x mod 2) by (apply Z.mod_pos_bound; lia). rewrite Z.add_0_r. reflexivity.
  - f_equal. rewrite Z.odd_add, Z.odd_mul. cbn [Z.odd andb]. rewrite xorb_false_r. rewrite Zmod_odd. destruct (Z.odd x); reflexivity.
Qed.
Lemma value_snoc l b : value (l ++ [b]) = 2 * value l + if b then 1 else 0.
Proof. unfold value. rewrite fold_left_app. reflexivity. Qed.
Lemma value_bits n x : value (bits n x) = x mod 2 ^ Z.of_nat n.
Proof.
  revert x. induction n as [|n IH]; intros x; [cbn; rewrite Z.mod_1_r; reflexivity|]. cbn [bits]. rewrite value_snoc, IH, Nat2Z.inj_succ, Z.pow_succ_r by lia.
  pose proof (Z.pow_pos_nonneg 2 (Z.of_nat n) ltac:(lia) ltac:(lia)). rewrite Z.rem_mul_r by lia. rewrite Zmod_odd. lia.
Qed.
Lemma value_app a b : value (a ++ b) = value a * 2 ^ Z.of_nat (length b) + value b.
Proof.
  induction b as [|x b IH] using rev_ind; [rewrite app_nil_r; cbn; unfold value; cbn; lia|].
  rewrite app_assoc, !value_snoc, IH, app_length, Nat.add_comm. cbn [length Nat.add]. rewrite Nat2Z.inj_succ, Z.pow_succ_r by lia. lia.
Qed.
Lemma all_bits_app a b : all_bits (a ++ b) = all_bits a ++ all_bits b.
Proof. unfold all_bits. apply flat_map_app. Qed.
Lemma all_bits_length m : length (all_bits m) = (8 * length m)%nat.
Proof. induction m as [|a m IH]; [reflexivity|]. cbn [all_bits flat_map]. rewrite app_length. fold (all_bits m). rewrite IH. unfold octet_bits. rewrite bits_length. cbn [length]. lia. Qed.
Lemma all_bits_firstn k m : all_bits (firstn k m) = firstn (8 * k) (all_bits m).
Proof.
  revert m. induction k as [|k IH]; intros [|a m]; cbn [firstn all_bits flat_map]; [reflexivity|rewrite Nat.mul_0_r; reflexivity|rewrite firstn_nil; reflexivity|].
  fold (all_bits (firstn k m)). fold (all_bits m). rewrite IH. replace (8 * S k)%nat with (length (octet_bits a) + 8 * k)%nat by (unfold octet_bits; rewrite bits_length; lia).
  rewrite firstn_app_2. reflexivity.
Qed.
Lemma all_bits_skipn k m : all_bits (skipn k m) = skipn (8 * k) (all_bits m).
Proof.
  revert m. induction k as [|k IH]; intros [|a m]; [reflexivity|rewrite Nat.mul_0_r; reflexivity|cbn [skipn all_bits flat_map]; rewrite skipn_nil; reflexivity|].
  cbn [skipn]. rewrite IH. cbn [all_bits flat_map]. fold (all_bits m). replace (8 * S k)%nat with (length (octet_bits a) + 8 * k)%nat by (unfold octet_bits; rewrite bits_length; lia).
  rewrite skipn_app, (skipn_all2 (octet_bits a)) by lia. rewrite Nat.add_comm, Nat.add_sub. reflexivity.
Qed.
Lemma octet_bits_byte x : octet_bits (byte_of (x mod 256)) = bits 8 x.
Proof. unfold octet_bits. change (number (byte_of (x mod 256))) with (byte_Z (byte_of (x mod 256))). rewrite byte_Z_of by (apply Z.mod_pos_bound; lia). apply (bits_mod 8). Qed.
Lemma to_octets_bits n x : all_bits (to_octets n x) = bits (8 * n) x.
Proof.
  revert x. induction n as [|n IH]; intros x; [reflexivity|]. cbn [to_octets]. rewrite all_bits_app, IH. cbn [all_bits flat_map]. rewrite app_nil_r, octet_bits_byte.
  replace (8 * S n)%nat with (8 * n + 8)%nat by lia. rewrite bits_app. reflexivity.
Qed.
Lemma of_octets_snoc l a : of_octets (l ++ [a]) = 256 * of_octets l + number a.
Proof. unfold of_octets. rewrite fold_left_app. reflexivity. Qed.
Lemma value_octets l : value (all_bits l) = of_octets l.
Proof.
  induction l as [|a l IH] using rev_ind; [reflexivity|]. rewrite all_bits_app, value_app, of_octets_snoc, IH. cbn [all_bits flat_map]. rewrite app_nil_r. unfold octet_bits. rewrite bits_length, value_bits.
  rewrite Z.mod_small by (apply byte_bound). change (2 ^ Z.of_nat 8) with 256. lia.
Qed.
Lemma of_octets_bound l : 0 <= of_octets l < 256 ^ Z.of_nat (length l).
Proof.
  induction l as [|a l IH] using rev_ind; [cbn; lia|]. rewrite of_octets_snoc, app_length, Nat.add_comm. cbn [length Nat.add]. rewrite Nat2Z.inj_succ, Z.pow_succ_r by lia. pose proof (byte_bound a). change (number a) with (byte_Z a). lia.
Qed.
Lemma all_bits_zero n : all_bits (repeat zero n) = repeat false (8 * n).
Proof. induction n as [|n IH]; [reflexivity|]. cbn [repeat all_bits flat_map]. fold (all_bits (repeat zero n)). rewrite IH. replace (8 * S n)%nat with (8 + 8 * n)%nat by lia. reflexivity. Qed.

(** ** Words *)
Section Word.
  Variable h : sha.
  Variable w : nat.
  Hypothesis Hb : sh_bits h = Z.of_nat w.
  Hypothesis Hw : (0 < w)%nat.
  Let M := 2 ^ Z.of_nat w.
  Lemma M_pos : 0 < M. Proof. unfold M. apply Z.pow_pos_nonneg; lia. Qed.
  Definition word (x : Z) : Prop := 0 <= x < 2 ^ Z.of_nat w.
  Lemma mask_is x : mask h x = x mod M.
  Proof. unfold mask. rewrite Hb. reflexivity. Qed.
  Lemma mask_word x : word (mask h x).
  Proof. rewrite mask_is. apply Z.mod_pos_bound, M_pos. Qed.
  Lemma high_bits x i : 0 <= x < 2 ^ i -> forall j, i <= j -> Z.testbit x j = false.
  Proof.
    intros X j J. destruct (Z.eq_dec x 0) as [->|N]; [apply Z.bits_0|]. apply Z.bits_above_log2; [lia|]. apply Z.lt_le_trans with i; [|exact J].
    apply Z.log2_lt_pow2; lia.
  Qed.
  Lemma rotr_is n x : 0 < n < Z.of_nat w -> word x -> rotr h n x = ROTR w n x.
  Proof.
    intros N X. unfold word in X. unfold rotr, ROTR. rewrite mask_is, Hb, Z.shiftr_div_pow2, Z.shiftl_mul_pow2 by lia. unfold M.
    assert (E : (2 ^ Z.of_nat w = 2 ^ n * 2 ^ (Z.of_nat w - n))) by (rewrite <- Z.pow_add_r by lia; f_equal; lia).
    rewrite E. rewrite Z.mul_mod_distr_r by (apply Z.pow_nonzero; lia).
    assert (B : 0 <= x / 2 ^ n < 2 ^ (Z.of_nat w - n)).
    { split; [apply Z.div_pos; [lia|apply Z.pow_pos_nonneg; lia]|]. apply Z.div_lt_upper_bound; [apply Z.pow_pos_nonneg; lia|]. rewrite <- E. lia. }
    assert (L : Z.land (x / 2 ^ n) (x mod 2 ^ n * 2 ^ (Z.of_nat w - n)) = 0).
    { apply Z.bits_inj'. intros i I. rewrite Z.land_spec, Z.bits_0. destruct (Z.lt_ge_cases i (Z.of_nat w - n)) as [C|C].
      - rewrite Z.mul_pow2_bits_low by lia. apply andb_false_r.
      - rewrite (high_bits _ _ B) by lia. reflexivity. }
    rewrite Z.add_nocarry_lxor by exact L. symmetry. apply Z.lxor_lor. exact L.
  Qed.
  Lemma Ch_is x y z : word x -> word y -> word z -> Sha2.Ch x y z = Ch w x y z.
  Proof.
    unfold word. intros X Y Z. unfold Sha2.Ch, Ch, not.
    assert (E : 2 ^ Z.of_nat w - 1 - x = Z.ldiff (Z.ones (Z.of_nat w)) x).
    { rewrite <- Z.sub_nocarry_ldiff.
      - rewrite Z.ones_equiv. lia.
      - destruct (Z.eq_dec x 0) as [->|N]; [apply Z.ldiff_0_l|]. apply Z.ldiff_ones_r_low; [lia|]. apply Z.log2_lt_pow2; lia. }
    rewrite E. apply Z.bits_inj'. intros i I. rewrite !Z.lxor_spec, !Z.land_spec, Z.lxor_spec, Z.ldiff_spec. destruct (Z.lt_ge_cases i (Z.of_nat w)) as [C|C].
    - rewrite Z.ones_spec_low by lia. destruct (Z.testbit x i), (Z.testbit y i), (Z.testbit z i); reflexivity.
    - rewrite (high_bits x _ X i C), (high_bits y _ Y i C), (high_bits z _ Z i C). destruct (Z.testbit (Z.ones _) i); reflexivity.
  Qed.
  Lemma Maj_is x y z : Sha2.Maj x y z = Maj x y z.
  Proof. unfold Sha2.Maj, Maj. rewrite Z.lxor_assoc. reflexivity. Qed.
  Definition rotation (n : Z) : Prop := 0 < n < Z.of_nat w.
  Definition rotations (r : Z * Z * Z) : Prop := let '(a, b, c) := r in rotation a /\ rotation b /\ rotation c.
  Lemma Sigma_is r x : rotations r -> word x -> Sigma h r x = three_rotations w r x.
  Proof. destruct r as [[a b] c]. intros (A & B & C) X. unfold Sigma, three_rotations. rewrite !rotr_is by assumption. symmetry. apply Z.lxor_assoc. Qed.
  Lemma sigma_is r x : rotations r -> word x -> sigma h r x = two_rotations w r x.
  Proof.
    destruct r as [[a b] c]. intros (A & B & C) X. unfold sigma, two_rotations, SHR. rewrite !rotr_is by assumption. unfold rotation in C. rewrite Z.shiftr_div_pow2 by lia. symmetry. apply Z.lxor_assoc.
  Qed.
  Lemma add_is x y : add w x y = (x + y) mod M.
  Proof. reflexivity. Qed.
  Lemma add_l p y : add w (p mod M) y = (p + y) mod M.
  Proof. rewrite add_is. apply Zplus_mod_idemp_l. Qed.
  Lemma add_r p y : (p + y mod M) mod M = (p + y) mod M.
  Proof. apply Zplus_mod_idemp_r. Qed.
  Lemma add_word x y : word (add w x y).
  Proof. apply Z.mod_pos_bound, M_pos. Qed.

  Hypothesis R1 : rotations (sh_S0 h).
  Hypothesis R2 : rotations (sh_S1 h).
  Hypothesis R3 : rotations (sh_s0 h).
  Hypothesis R4 : rotations (sh_s1 h).
  Definition listed (st : state) : list Z := let '(a, b, c, d, e, f, g, x) := st in [a; b; c; d; e; f; g; x].
  Definition words (l : list Z) : Prop := Forall word l.
  Lemma round_is st k wd : words (listed st) -> listed (sha_round h st k wd) = round w (sh_S0 h) (sh_S1 h) (listed st) (k, wd) /\ words (listed (sha_round h st k wd)).
  Proof.
    destruct st as [[[[[[[a b] c] d] e] f] g] x]. cbn [listed sha_round round fst snd]. intros W. unfold words in *. rewrite !Forall_cons_iff in W. destruct W as (A & B & C & D & E & F & G & X & _).
    split; [|repeat (apply Forall_cons; [first [apply mask_word|assumption]|]); apply Forall_nil].
    rewrite Sigma_is, Ch_is, Sigma_is, Maj_is, !mask_is by assumption. rewrite (add_is x), (add_is (three_rotations _ _ _)), !add_l, !add_r, (add_is d), Zplus_mod_idemp_r.
    reflexivity.
  Qed.

  (** The message schedule. *)
  Variable block : list Z.
  Hypothesis Lb : length block = 16%nat.
  Hypothesis Wb : words block.
  Notation sched n := (schedule w (sh_s0 h) (sh_s1 h) n block).
  Lemma sched_length n : length (sched n) = (16 + n)%nat.
  Proof. induction n as [|n IH]; cbn [schedule]; [rewrite Lb; reflexivity|]. rewrite app_length, IH. cbn. lia. Qed.
  Lemma sched_words n : words (sched n).
  Proof. induction n as [|n IH]; [exact Wb|]. cbn [schedule]. apply Forall_app. split; [exact IH|]. constructor; [apply add_word|constructor]. Qed.
  Lemma sched_prefix n k : exists r, sched (n + k) = sched n ++ r.
  Proof.
    induction k as [|k [r IH]]; [exists []; rewrite Nat.add_0_r, app_nil_r; reflexivity|]. rewrite Nat.add_succ_r. cbn [schedule]. rewrite IH, <- app_assoc. eexists. reflexivity.
  Qed.
  Lemma sched_nth n k i : (i < 16 + n)%nat -> nth i (sched (n + k)) 0 = nth i (sched n) 0.
  Proof. intros I. destruct (sched_prefix n k) as [r ->]. apply app_nth1. rewrite sched_length. exact I. Qed.
  Definition next_word (V : list Z) (t : nat) : Z :=
    mask h (sigma h (sh_s1 h) (nth (t + 14) V 0) + nth (t + 9) V 0 + sigma h (sh_s0 h) (nth (t + 1) V 0) + nth t V 0).
  Lemma nth_word V i : words V -> word (nth i V 0).
  Proof.
    intros W. destruct (Nat.lt_ge_cases i (length V)) as [L|L].
    - unfold words in W. rewrite Forall_forall in W. apply W, nth_In, L.
    - rewrite nth_overflow by exact L. split; [lia|apply M_pos].
  Qed.
  Lemma sched_next n t : (t < n)%nat -> nth (16 + t) (sched n) 0 = next_word (sched n) t.
  Proof.
    intros T. replace n with (S t + (n - S t))%nat by lia. rewrite sched_nth by lia. unfold next_word. rewrite !sched_nth by lia.
    cbn [schedule]. rewrite app_nth2 by (rewrite sched_length; lia). rewrite sched_length, Nat.sub_diag. cbn [nth].
    rewrite !app_nth1 by (rewrite sched_length; lia).
    replace (16 + t - 2)%nat with (t + 14)%nat by lia. replace (16 + t - 7)%nat with (t + 9)%nat by lia. replace (16 + t - 15)%nat with (t + 1)%nat by lia. replace (16 + t - 16)%nat with t by lia.
    rewrite !sigma_is by (try assumption; apply nth_word, sched_words). rewrite mask_is, !add_is. rewrite Zplus_mod_idemp_l, Zplus_mod_idemp_r. f_equal. ring.
  Qed.
  Lemma nth_skip (V : list Z) i t : nth i (skipn t V) 0 = nth (t + i) V 0.
  Proof. revert V. induction t as [|t IH]; intros V; [reflexivity|]. destruct V as [|v V]; [destruct i; reflexivity|]. cbn [skipn Nat.add nth]. apply IH. Qed.
  Lemma nth_first (V : list Z) i n : (i < n)%nat -> nth i (firstn n V) 0 = nth i V 0.
  Proof. revert V i. induction n as [|n IH]; intros V i I; [lia|]. destruct V as [|v V]; [destruct i; reflexivity|]. destruct i; [reflexivity|]. cbn. apply IH. lia. Qed.
  Lemma skip_cons (V : list Z) t : (t < length V)%nat -> skipn t V = nth t V 0 :: skipn (S t) V.
  Proof. revert V. induction t as [|t IH]; intros [|v V] L; cbn [length] in L; try lia; [reflexivity|]. cbn [skipn nth]. rewrite IH by lia. reflexivity. Qed.
  Lemma rounds_are ks : forall n t st, (t + length ks <= n)%nat -> words (listed st) ->
    listed (sha_rounds h ks (firstn 16 (skipn t (sched n))) st) = fold_left (round w (sh_S0 h) (sh_S1 h)) (combine ks (skipn t (sched n))) (listed st) /\
    words (listed (sha_rounds h ks (firstn 16 (skipn t (sched n))) st)).
  Proof.
    induction ks as [|k ks IH]; intros n t st T W; [cbn; auto|]. cbn [length] in T.
    rewrite (skip_cons (sched n) t) by (rewrite sched_length; lia). rewrite firstn_cons. cbn [sha_rounds combine fold_left].
    destruct (round_is st k (nth t (sched n) 0) W) as [E W']. rewrite <- E.
    match goal with |- context [sha_rounds h ks ?x _] => assert (Q : x = firstn 16 (skipn (S t) (sched n))) end.
    { rewrite !nth_first by lia. rewrite !nth_skip. replace (S t + 13)%nat with (t + 14)%nat by lia. replace (S t + 8)%nat with (t + 9)%nat by lia. replace (S t + 0)%nat with (t + 1)%nat by lia.
      fold (next_word (sched n) t). rewrite <- sched_next by lia. replace (16 + t)%nat with (S t + 15)%nat by lia. rewrite <- nth_skip.
      assert (L : (16 <= length (skipn (S t) (sched n)))%nat) by (rewrite skipn_length, sched_length; lia). revert L. generalize (skipn (S t) (sched n)). clear. intros V L.
      assert (G : forall k V, (k < length V)%nat -> firstn k V ++ [nth k V 0] = firstn (S k) V).
      { clear. induction k as [|k IH]; intros [|v V] L; cbn [length] in L; try lia; [reflexivity|]. cbn [firstn nth app]. f_equal. apply IH. lia. }
      apply (G 15%nat). lia. }
    rewrite Q. apply IH; [lia|exact W'].
  Qed.
  Lemma combine_prefix {A B} (ks : list A) (a r : list B) : length ks = length a -> combine ks (a ++ r) = combine ks a.
  Proof. revert a. induction ks as [|k ks IH]; intros [|x a] L; cbn [length] in L; try lia; [reflexivity|]. cbn [app combine]. rewrite IH by lia. reflexivity. Qed.
  Lemma compress_is st : (16 <= length (sh_k h))%nat -> words (listed st) ->
    listed (let '(a, b, c, d, e, f, g, x) := st in
            let '(a', b', c', d', e', f', g', x') := sha_rounds h (sh_k h) block st in
            (mask h (a + a'), mask h (b + b'), mask h (c + c'), mask h (d + d'), mask h (e + e'), mask h (f + f'), mask h (g + g'), mask h (x + x')))
    = compress w (sh_S0 h) (sh_S1 h) (sh_s0 h) (sh_s1 h) (sh_k h) (listed st) block.
  Proof.
    intros LK W. destruct (rounds_are (sh_k h) (length (sh_k h)) 0 st ltac:(lia) W) as [E _]. cbn [skipn] in E.
    assert (F : firstn 16 (sched (length (sh_k h))) = block).
    { destruct (sched_prefix 0 (length (sh_k h))) as [r Er]. cbn [Nat.add] in Er. rewrite Er. cbn [schedule]. rewrite firstn_app, firstn_all2, Lb, Nat.sub_diag by lia. cbn. apply app_nil_r. }
    rewrite F in E. unfold compress.
    assert (C : combine (sh_k h) (sched (length (sh_k h))) = combine (sh_k h) (sched (length (sh_k h) - 16))).
    { destruct (sched_prefix (length (sh_k h) - 16) 16) as [r Er]. replace (length (sh_k h) - 16 + 16)%nat with (length (sh_k h)) in Er by lia. rewrite Er. apply combine_prefix. rewrite sched_length. lia. }
    rewrite C in E. rewrite <- E. destruct (sha_rounds h (sh_k h) block st) as [[[[[[[a' b'] c'] d'] e'] f'] g'] x']. destruct st as [[[[[[[a b] c] d] e] f] g] x].
    cbn [listed combine map fst snd]. rewrite !mask_is, !add_is, (Z.add_comm a), (Z.add_comm b), (Z.add_comm c), (Z.add_comm d), (Z.add_comm e), (Z.add_comm f), (Z.add_comm g), (Z.add_comm x). reflexivity.
  Qed.
End Word.

(** ** Pieces *)
Lemma pieces_seq {A} k (l : list A) : (0 < k)%nat -> forall c fuel, length l = (c * k)%nat -> (c <= fuel)%nat ->
  pieces fuel k l = map (fun i => firstn k (skipn (i * k) l)) (seq 0 c).
Proof.
  intros K c. revert l. induction c as [|c IH]; intros l fuel L Fu.
  - destruct l; [|discriminate]. destruct fuel; reflexivity.
  - destruct fuel as [|fuel]; [lia|]. destruct l as [|x l]; [cbn [length] in L; lia|]. set (X := x :: l) in *. change (pieces (S fuel) k X) with (firstn k X :: pieces fuel k (skipn k X)).
    cbn [seq map Nat.mul skipn]. f_equal. rewrite IH by (rewrite ?skipn_length; lia). rewrite <- seq_shift, map_map. apply map_ext. intros i. f_equal.
    clear. revert X. induction k as [|k IHk]; intros X; [cbn; rewrite Nat.mul_0_r; reflexivity|]. 
    assert (G : forall (a b : nat) (l : list A), skipn a (skipn b l) = skipn (b + a) l).
    { clear. intros a b. induction b as [|b IH]; intros l; [reflexivity|]. destruct l; [cbn; rewrite !skipn_nil; destruct a; reflexivity|]. cbn [skipn Nat.add]. apply IH. }
    rewrite G. f_equal.
Qed.
Lemma parse_pieces k c fuel (m : bytes) : (0 < k)%nat -> length m = (c * k)%nat -> (c <= fuel)%nat -> parse (8 * k) (all_bits m) = map all_bits (pieces fuel k m).
Proof.
  intros K L Fu. rewrite (pieces_seq k m K c fuel L Fu), map_map. unfold parse. rewrite all_bits_length, L.
  replace (8 * (c * k) / (8 * k))%nat with c by (replace (8 * (c * k))%nat with (c * (8 * k))%nat by lia; rewrite Nat.div_mul by lia; reflexivity).
  apply map_ext. intros i. rewrite all_bits_firstn, all_bits_skipn. do 2 f_equal. lia.
Qed.

(** ** The hash *)
Section Hash.
  Variable h : sha.
  Variable o : nat.
  Hypothesis Ho : sh_octets h = o.
  Hypothesis Hb : sh_bits h = Z.of_nat (8 * o).
  Hypothesis O : (0 < o)%nat.
  Notation w := (8 * o)%nat.
  Hypothesis R1 : rotations w (sh_S0 h).
  Hypothesis R2 : rotations w (sh_S1 h).
  Hypothesis R3 : rotations w (sh_s0 h).
  Hypothesis R4 : rotations w (sh_s1 h).
  Hypothesis LK : (16 <= length (sh_k h))%nat.
  Hypothesis LH : length (sh_h h) = 8%nat.
  Hypothesis WH : words w (sh_h h).
  Lemma pow_octets : 2 ^ Z.of_nat w = 256 ^ Z.of_nat o.
  Proof. rewrite Nat2Z.inj_mul, Z.pow_mul_r by lia. reflexivity. Qed.
  Lemma block_is st b : length b = (16 * o)%nat -> words w (listed st) ->
    listed (sha_block h st b) = compress w (sh_S0 h) (sh_S1 h) (sh_s0 h) (sh_s1 h) (sh_k h) (listed st) (map value (parse w (all_bits b))) /\ words w (listed (sha_block h st b)).
  Proof.
    intros L W. rewrite (parse_pieces o 16 16 b O L (le_n _)), map_map. rewrite (map_ext _ _ value_octets). unfold sha_block. rewrite Ho. set (bl := map of_octets (pieces 16 o b)).
    assert (Lb : length bl = 16%nat) by (unfold bl; rewrite (pieces_seq o b O 16 16 L (le_n _)), !map_length; reflexivity).
    assert (Wb : words w bl).
    { unfold bl, words. rewrite Forall_forall. intros x I0. apply in_map_iff in I0. destruct I0 as (p & <- & I0). rewrite (pieces_seq o b O 16 16 L (le_n _)) in I0. apply in_map_iff in I0.
      destruct I0 as (i & <- & I0). apply in_seq in I0. pose proof (of_octets_bound (firstn o (skipn (i * o) b))) as B. unfold word. rewrite pow_octets.
      rewrite firstn_length, skipn_length, L in B. rewrite Nat.min_l in B; [exact B|]. nia. }
    split; [apply (compress_is h w Hb ltac:(lia) R1 R2 R3 R4 bl Lb Wb st LK W)|]. clear Lb Wb.
    destruct st as [[[[[[[a b0] c] d] e] f] g] x]. destruct (sha_rounds h (sh_k h) bl _) as [[[[[[[a' b'] c'] d'] e'] f'] g'] x']. cbn [listed].
    unfold words. repeat (apply Forall_cons; [apply (mask_word h w Hb); lia|]). apply Forall_nil.
  Qed.
  Lemma blocks_are bs : forall st, Forall (fun b => length b = (16 * o)%nat) bs -> words w (listed st) ->
    listed (fold_left (sha_block h) bs st) = fold_left (compress w (sh_S0 h) (sh_S1 h) (sh_s0 h) (sh_s1 h) (sh_k h)) (map (fun b => map value (parse w (all_bits b))) bs) (listed st).
  Proof.
    induction bs as [|b bs IH]; intros st L W; [reflexivity|]. cbn [map fold_left]. destruct (block_is st b (Forall_inv L) W) as [E W']. rewrite <- E. apply IH; [exact (Forall_inv_tail L)|exact W'].
  Qed.
  Lemma start_is : listed (sha_start h) = sh_h h.
  Proof. unfold sha_start. cbn [listed]. destruct (sh_h h) as [|a [|b [|c [|d [|e [|f [|g [|x [|]]]]]]]]]; cbn in LH; try discriminate. reflexivity. Qed.
  Lemma pad_is m : all_bits (m ++ padding h (length m)) = pad w (all_bits m).
  Proof.
    unfold padding, pad. rewrite Ho. rewrite all_bits_app. f_equal. rewrite all_bits_length. set (z := Z.to_nat _). cbn [all_bits flat_map]. fold (all_bits (repeat zero z ++ to_octets (2 * o) (8 * Z.of_nat (length m)))).
    rewrite all_bits_app, all_bits_zero, to_octets_bits.
    match goal with |- _ = _ ++ repeat false ?n ++ bits _ ?l => assert (E : n = (7 + 8 * z)%nat) end.
    { assert (Q : (14 * Z.of_nat w - (Z.of_nat (8 * length m) + 1)) mod (16 * Z.of_nat w) = 8 * ((- (Z.of_nat (length m) + 1 + Z.of_nat (2 * o))) mod Z.of_nat (16 * o)) + 7).
      { set (len := Z.of_nat (length m)) in *. replace (Z.of_nat (8 * length m)) with (8 * len) by lia. replace (Z.of_nat (16 * o)) with (16 * Z.of_nat o) by lia. replace (16 * Z.of_nat w) with (8 * (16 * Z.of_nat o)) by lia.
        set (y := Z.of_nat o) in *. assert (Y : 0 < y) by lia. replace (14 * Z.of_nat w - (8 * len + 1)) with (7 + (- (len + 1 + 2 * y) + 1 * (16 * y)) * 8) by lia.
        replace (Z.of_nat (2 * o)) with (2 * y) by lia. rewrite Z.rem_mul_r by lia. rewrite Z.mod_add, Z.div_add by lia. change (7 mod 8) with 7. change (7 / 8) with 0. rewrite Z.add_0_l. rewrite Z.mod_add by lia. lia. }
      rewrite Q. unfold z. pose proof (Z.mod_pos_bound (- (Z.of_nat (length m) + 1 + Z.of_nat (2 * o))) (Z.of_nat (16 * o)) ltac:(lia)). lia. }
    rewrite E. cbn [Nat.add repeat app]. replace (2 * w)%nat with (8 * (2 * o))%nat by lia. replace (Z.of_nat (8 * length m)) with (8 * Z.of_nat (length m)) by lia. reflexivity.
  Qed.
  Lemma padded_length m : exists c, length (m ++ padding h (length m)) = (c * (16 * o))%nat /\ (c <= S (length m))%nat.
  Proof.
    unfold padding. rewrite Ho, app_length. cbn [length]. rewrite app_length, repeat_length.
    assert (T : forall n x, length (to_octets n x) = n) by (induction n as [|n IH]; intros x; cbn [to_octets]; [reflexivity|]; rewrite app_length, IH; cbn; lia). rewrite T.
    set (len := length m). set (a := - (Z.of_nat len + 1 + Z.of_nat (2 * o))). set (d := Z.of_nat (16 * o)).
    pose proof (Z.mod_pos_bound a d ltac:(lia)) as B. pose proof (Z.div_mod a d ltac:(lia)) as D.
    exists (Z.to_nat (- (a / d))). assert (P : a / d < 0) by (apply Z.div_lt_upper_bound; lia).
    assert (Z.of_nat (len + S (Z.to_nat (a mod d) + 2 * o)) = - (a / d) * d) by (unfold a in *; lia).
    split; [nia|]. assert (- (a / d) <= Z.of_nat len + 1); [|lia]. assert (- (Z.of_nat len + 1) <= a / d); [|lia]. apply Z.div_le_lower_bound; [lia|]. unfold a, d. nia.
  Qed.
  Theorem digest_bits m : all_bits (digest h m) = hash w (sh_S0 h) (sh_S1 h) (sh_s0 h) (sh_s1 h) (sh_k h) (sh_h h) (all_bits m).
  Proof.
    unfold digest, hash. rewrite Ho. destruct (padded_length m) as (c & Lc & Cc). rewrite <- pad_is. replace (16 * w)%nat with (8 * (16 * o))%nat by lia.
    rewrite (parse_pieces (16 * o) c (S (length m)) _ ltac:(lia) Lc Cc), map_map. rewrite <- start_is at 1. rewrite <- (blocks_are (pieces (S (length m)) (16 * o) (m ++ padding h (length m))) (sha_start h)).
    - destruct (fold_left (sha_block h) _ _) as [[[[[[[a b] c'] d] e] f] g] x]. cbn [listed flat_map]. rewrite !all_bits_app, !to_octets_bits. reflexivity.
    - rewrite (pieces_seq (16 * o) _ ltac:(lia) c _ Lc Cc). rewrite Forall_forall. intros b I0. apply in_map_iff in I0. destruct I0 as (i & <- & I0). apply in_seq in I0. rewrite firstn_length, skipn_length, Lc. apply Nat.min_l. nia.
    - rewrite start_is. exact WH.
  Qed.
End Hash.
Lemma words_check w l : forallb (fun x => (0 <=? x) && (x <? 2 ^ Z.of_nat w)) l = true -> words w l.
Proof. intros H. unfold words. rewrite Forall_forall. rewrite forallb_forall in H. intros x I0. specialize (H x I0). apply andb_prop in H. rewrite Z.leb_le, Z.ltb_lt in H. exact H. Qed.
Lemma k256 : sh_k SHA256 = map (fraction 3 32) (primes 64). Proof. vm_compute. reflexivity. Qed.
Lemma h256 : sh_h SHA256 = map (fraction 2 32) (primes 8). Proof. vm_compute. reflexivity. Qed.
Lemma k512 : sh_k SHA512 = map (fraction 3 64) (primes 80). Proof. vm_compute. reflexivity. Qed.
Lemma h512 : sh_h SHA512 = map (fraction 2 64) (primes 8). Proof. vm_compute. reflexivity. Qed.
Lemma rotations_check w a b c : (0 <? a) && (a <? Z.of_nat w) && (0 <? b) && (b <? Z.of_nat w) && (0 <? c) && (c <? Z.of_nat w) = true -> rotations w (a, b, c).
Proof. rewrite !andb_true_iff, !Z.ltb_lt. unfold rotations, rotation. tauto. Qed.
Theorem sha256_bits m : all_bits (digest SHA256 m) = sha256 (all_bits m).
Proof.
  assert (LK : (16 <=? length (sh_k SHA256))%nat = true) by (vm_compute; reflexivity). apply Nat.leb_le in LK.
  assert (WH : words (8 * 4) (sh_h SHA256)) by (apply words_check; vm_compute; reflexivity).
  refine (eq_trans (digest_bits SHA256 4 eq_refl eq_refl ltac:(lia) _ _ _ _ LK eq_refl WH m) _); try (apply rotations_check; vm_compute; reflexivity).
  exact (f_equal2 (fun K H => hash 32 (2, 13, 22) (6, 11, 25) (7, 18, 3) (17, 19, 10) K H (all_bits m)) k256 h256).
Qed.
Theorem sha512_bits m : all_bits (digest SHA512 m) = sha512 (all_bits m).
Proof.
  assert (LK : (16 <=? length (sh_k SHA512))%nat = true) by (vm_compute; reflexivity). apply Nat.leb_le in LK.
  assert (WH : words (8 * 8) (sh_h SHA512)) by (apply words_check; vm_compute; reflexivity).
  refine (eq_trans (digest_bits SHA512 8 eq_refl eq_refl ltac:(lia) _ _ _ _ LK eq_refl WH m) _); try (apply rotations_check; vm_compute; reflexivity).
  exact (f_equal2 (fun K H => hash 64 (28, 34, 39) (14, 18, 41) (1, 8, 7) (19, 61, 6) K H (all_bits m)) k512 h512).
Qed.

(** ** HMAC *)
Lemma xor_octet_bits a b : octet_bits (xor_octet a b) = xor_bits (octet_bits a) (octet_bits b).
Proof.
  assert (H : forall a, forallb (fun b => if list_eq_dec bool_dec (octet_bits (xor_octet a b)) (xor_bits (octet_bits a) (octet_bits b)) then true else false) all_ascii = true).
  { apply by_cases. vm_compute. reflexivity. }
  specialize (H a). rewrite forallb_forall in H. specialize (H b (all_ascii_in b)). destruct (list_eq_dec _ _ _); [assumption|discriminate].
Qed.
Lemma xor_bits_app a b c d : length a = length b -> xor_bits (a ++ c) (b ++ d) = xor_bits a b ++ xor_bits c d.
Proof. unfold xor_bits. revert b. induction a as [|x a IH]; intros [|y b] L; cbn [length] in L; try lia; [reflexivity|]. cbn. f_equal. apply IH. lia. Qed.
Lemma xor_all a : forall b, all_bits (xor_octets a b) = xor_bits (all_bits a) (all_bits b).
Proof.
  induction a as [|x a IH]; intros [|y b]; try reflexivity.
  - change (all_bits (xor_octets (x :: a) (y :: b))) with (octet_bits (xor_octet x y) ++ all_bits (xor_octets a b)). change (all_bits (x :: a)) with (octet_bits x ++ all_bits a). change (all_bits (y :: b)) with (octet_bits y ++ all_bits b).
    rewrite xor_bits_app by (unfold octet_bits; rewrite !bits_length; reflexivity). rewrite xor_octet_bits. f_equal. apply IH.
Qed.
Lemma pads_are : all_bits (repeat (byte_of 54) 64) = ipad /\ all_bits (repeat (byte_of 92) 64) = opad.
Proof. split; vm_compute; reflexivity. Qed.
Theorem hmac_is key m : all_bits (hmac key m) = hmac_bits (all_bits key) (all_bits m).
Proof.
  destruct pads_are as [I0 O0]. unfold hmac, hmac_bits. cbv zeta.
  match goal with |- context [xor_octets ?y _] => assert (K : all_bits y = block_key (all_bits key)); [|revert K; generalize y; intros k K] end.
  { unfold block_key. rewrite all_bits_length. replace (512 <? 8 * length key)%nat with (64 <? length key)%nat by (destruct (Nat.ltb_spec 64 (length key)), (Nat.ltb_spec 512 (8 * length key)); lia).
    cbv zeta. rewrite all_bits_app, all_bits_zero. destruct (64 <? length key)%nat; rewrite <- ?sha256_bits, !all_bits_length; do 2 f_equal; lia. }
  rewrite sha256_bits, all_bits_app, xor_all, sha256_bits, all_bits_app, xor_all, K, I0, O0. reflexivity.
Qed.

(** ** PBKDF2 *)
Lemma pbkdf2_block_is p s it i : 1 <= it -> all_bits (pbkdf2_block p s it i) = T (all_bits p) (all_bits s) (Z.to_nat it) (Z.of_nat i).
Proof.
  intros IT. unfold pbkdf2_block, T. set (u1 := hmac _ _).
  assert (E1 : all_bits u1 = U (all_bits p) (all_bits s) (Z.of_nat i) 0) by (unfold u1; rewrite hmac_is, all_bits_app, to_octets_bits; reflexivity).
  assert (H : forall n, let r := N.iter (N.of_nat n) (fun '(u, t) => let u' := hmac p u in (u', xor_octets t u')) (u1, u1) in
     all_bits (fst r) = U (all_bits p) (all_bits s) (Z.of_nat i) n /\
     all_bits (snd r) = fold_left (fun acc j => xor_bits acc (U (all_bits p) (all_bits s) (Z.of_nat i) j)) (seq 1 n) (U (all_bits p) (all_bits s) (Z.of_nat i) 0)).
  { cbv zeta. induction n as [|n IH]; [split; exact E1|]. rewrite Nat2N.inj_succ, N.iter_succ. destruct (N.iter _ _ _) as [u t]. cbn [fst snd] in *. destruct IH as [A B]. split.
    - rewrite hmac_is, A. reflexivity.
    - rewrite seq_S, fold_left_app. cbn [fold_left]. rewrite xor_all, B, hmac_is, A. reflexivity. }
  specialize (H (Z.to_nat it - 1)%nat). replace (Z.to_N (it - 1)) with (N.of_nat (Z.to_nat it - 1)) by lia. apply H.
Qed.
Theorem pbkdf2_is p s it n : 1 <= it -> all_bits (pbkdf2_bytes p s it (Z.of_nat n)) = pbkdf2_bits (all_bits p) (all_bits s) (Z.to_nat it) n.
Proof.
  intros IT. unfold pbkdf2_bytes, pbkdf2_bits. rewrite all_bits_firstn, Nat2Z.id. f_equal.
  replace (Z.to_nat ((Z.of_nat n + 31) / 32)) with ((n + 31) / 32)%nat.
  - induction (seq 1 ((n + 31) / 32)) as [|i l IH]; [reflexivity|]. cbn [flat_map]. rewrite all_bits_app, IH, pbkdf2_block_is by exact IT. reflexivity.
  - rewrite <- (Nat2Z.id ((n + 31) / 32)). f_equal. rewrite Nat2Z.inj_div, Nat2Z.inj_add. reflexivity.
Qed.
