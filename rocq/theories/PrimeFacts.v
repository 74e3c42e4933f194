(** * PrimeFacts: Fermat's little theorem, Pocklington's criterion, and the two primes of Ed25519.  Proofs only. *)
From Coq Require Import List ZArith Znumtheory Zpow_facts Bool Lia Permutation.
Import ListNotations.
Local Open Scope Z_scope.

(** ** Fermat *)
Definition range (p : Z) : list Z := map Z.of_nat (seq 1 (Z.to_nat (p - 1))).
Lemma range_in p x : In x (range p) <-> 1 <= x < p.
Proof.
  unfold range. rewrite in_map_iff. split.
  - intros (n & <- & H). apply in_seq in H. lia.
  - intros H. exists (Z.to_nat x). split; [lia|]. apply in_seq. lia.
Qed.
Lemma range_nodup p : NoDup (range p).
Proof. unfold range. apply FinFun.Injective_map_NoDup; [intros a b; lia|apply seq_NoDup]. Qed.
Definition prod (l : list Z) : Z := fold_right Z.mul 1 l.
Lemma prod_perm a b : Permutation a b -> prod a = prod b.
Proof. induction 1; cbn [prod fold_right] in *; try fold (prod l) in *; try fold (prod l') in *; [reflexivity|unfold prod in *; congruence|ring|congruence]. Qed.
Lemma prod_scale p a l : 1 < p -> prod (map (fun x => (a * x) mod p) l) mod p = (a ^ Z.of_nat (length l) * prod l) mod p.
Proof.
  intros P. induction l as [|x l IH]; [reflexivity|]. cbn [map length]. change (prod (?y :: ?z)) with (y * prod z).
  rewrite Zmult_mod, IH, Z.mod_mod, <- Zmult_mod by lia. change (prod (x :: l)) with (x * prod l). rewrite Nat2Z.inj_succ, Z.pow_succ_r by lia. f_equal. ring.
Qed.
Lemma prod_rel_prime p l : prime p -> (forall x, In x l -> 1 <= x < p) -> rel_prime (prod l) p.
Proof.
  intros P. induction l as [|x l IH]; intros H; [apply rel_prime_1|]. change (prod (x :: l)) with (x * prod l). apply rel_prime_sym, rel_prime_mult; apply rel_prime_sym.
  - apply rel_prime_le_prime; [exact P|apply H; left; reflexivity].
  - apply IH. intros y Y. apply H. right. exact Y.
Qed.
Lemma prime_cancel p a b c : prime p -> rel_prime c p -> (a * c) mod p = (b * c) mod p -> a mod p = b mod p.
Proof.
  intros P R H. pose proof (prime_ge_2 _ P). assert (D : (p | (a - b) * c)).
  { apply Z.mod_divide; [lia|]. rewrite Z.mul_sub_distr_r, Zminus_mod, H, Z.sub_diag. apply Z.mod_0_l. lia. }
  rewrite Z.mul_comm in D. apply Gauss in D; [|apply rel_prime_sym; exact R]. apply Z.mod_divide in D; [|lia].
  rewrite <- (Z.sub_add b a), Zplus_mod, D, Z.add_0_l, Z.mod_mod by lia. reflexivity.
Qed.
Theorem fermat p a : prime p -> ~ (p | a) -> a ^ (p - 1) mod p = 1.
Proof.
  intros P N. pose proof (prime_ge_2 _ P) as G.
  assert (Pm : Permutation (map (fun x => (a * x) mod p) (range p)) (range p)).
  { apply NoDup_Permutation_bis.
    - apply (NoDup_map_inv (fun x => x)). rewrite map_id. assert (I : forall l, NoDup l -> (forall x, In x l -> 1 <= x < p) -> NoDup (map (fun x => (a * x) mod p) l)).
      { induction l as [|x l IH]; intros D H; [constructor|]. cbn [map]. inversion D; subst. constructor.
        - intros I. apply in_map_iff in I. destruct I as (y & E & I). rewrite (Z.mul_comm a y), (Z.mul_comm a x) in E. apply prime_cancel in E; [|exact P|apply rel_prime_sym, prime_rel_prime; assumption].
          rewrite !Z.mod_small in E by (pose proof (H x (or_introl eq_refl)); pose proof (H y (or_intror I)); lia). subst y. auto.
        - apply IH; [assumption|]. intros y Y. apply H. right. exact Y. }
      apply I; [apply range_nodup|]. intros x X. apply range_in. exact X.
    - rewrite map_length. lia.
    - intros y Y. apply in_map_iff in Y. destruct Y as (x & <- & X). apply range_in in X. apply range_in. pose proof (Z.mod_pos_bound (a * x) p ltac:(lia)).
      assert ((a * x) mod p <> 0); [|lia]. intros E. apply Z.mod_divide in E; [|lia]. apply prime_mult in E; [|exact P]. destruct E as [E|E]; [auto|]. apply Z.divide_pos_le in E; lia. }
  pose proof (prod_scale p a (range p) ltac:(lia)) as S. rewrite (prod_perm _ _ Pm) in S.
  assert (L : Z.of_nat (length (range p)) = p - 1) by (unfold range; rewrite map_length, seq_length; lia). rewrite L in S.
  transitivity (1 mod p); [|apply Z.mod_1_l; lia]. apply prime_cancel with (c := prod (range p)); [exact P| |].
  - apply prod_rel_prime; [exact P|]. intros x X. apply range_in. exact X.
  - rewrite Z.mul_1_l. symmetry. exact S.
Qed.

(** ** Pocklington *)
Lemma prime_divisor n : 1 < n -> exists r, prime r /\ (r | n).
Proof.
  intros H. assert (I : forall m, 0 <= m -> forall n, 1 < n <= m -> exists r, prime r /\ (r | n)); [|apply (I n); lia].
  apply (natlike_ind (fun m => forall n, 1 < n <= m -> exists r, prime r /\ (r | n))); [lia|]. intros m M IH k K. destruct (prime_dec k) as [P|P]; [exists k; split; [exact P|apply Z.divide_refl]|].
  destruct (not_prime_divide k ltac:(lia) P) as (d & D1 & D2). destruct (IH d ltac:(lia)) as (r & R1 & R2). exists r. split; [exact R1|]. apply Z.divide_trans with d; assumption.
Qed.
Lemma small_divisor n : 1 < n -> ~ prime n -> exists r, prime r /\ (r | n) /\ r * r <= n.
Proof.
  intros H N. destruct (not_prime_divide n H N) as (d & D1 & [e E]). subst n. assert (0 < e) by nia. assert (1 < e) by nia.
  destruct (Z.le_ge_cases d e) as [C|C].
  - destruct (prime_divisor d ltac:(lia)) as (r & R1 & R2). exists r. split; [exact R1|]. split; [apply Z.divide_mul_r, R2|]. pose proof (prime_ge_2 _ R1). apply Z.divide_pos_le in R2; [nia|lia].
  - destruct (prime_divisor e ltac:(lia)) as (r & R1 & R2). exists r. split; [exact R1|]. split; [apply Z.divide_mul_l, R2|]. pose proof (prime_ge_2 _ R1). apply Z.divide_pos_le in R2; [nia|lia].
Qed.
Lemma pow_one x n r : 1 < r -> 0 <= n -> x mod r = 1 -> x ^ n mod r = 1.
Proof. intros R N H. rewrite Zpower_mod by lia. rewrite H, Z.pow_1_l, Z.mod_1_l by lia. reflexivity. Qed.
(** Two coprime exponents that give 1. *)
Lemma coprime_exponents x r u v : 1 < r -> 0 < u -> 0 < v -> rel_prime u v -> x ^ u mod r = 1 -> x ^ v mod r = 1 -> x mod r = 1.
Proof.
  intros R U V C E1 E2. apply rel_prime_bezout in C. destruct C as [a b E].
  assert (G : forall s t m n, 0 <= s -> 0 <= t -> 0 < m -> 0 < n -> s * m = 1 + t * n -> x ^ m mod r = 1 -> x ^ n mod r = 1 -> x mod r = 1).
  { clear - R. intros s t m n S T M N E E1 E2. pose proof (pow_one (x ^ m) s r R S E1) as A. pose proof (pow_one (x ^ n) t r R T E2) as B. rewrite <- Z.pow_mul_r in A, B by lia.
    replace (m * s) with (1 + n * t) in A by lia. rewrite Z.pow_add_r, Z.pow_1_r in A by nia. rewrite Zmult_mod, B, Z.mul_1_r, Z.mod_mod in A by lia. exact A. }
  destruct (Z.lt_ge_cases 0 a) as [A|A].
  - apply (G a (- b) u v); try assumption; nia.
  - apply (G b (- a) v u); try assumption; nia.
Qed.
Lemma pock_divides N q a r : prime q -> prime r -> (r | N) -> 1 < N -> (q | N - 1) -> a ^ (N - 1) mod N = 1 -> Z.gcd (a ^ ((N - 1) / q) - 1) N = 1 -> (q | r - 1).
Proof.
  intros Q R D N1 [m M] E G. pose proof (prime_ge_2 _ Q) as Q2. pose proof (prime_ge_2 _ R) as R2. assert (M0 : 0 < m) by nia.
  rewrite M, Z.div_mul in G by lia. set (x := a ^ m) in *.
  assert (Er : x ^ q mod r = 1).
  { unfold x. rewrite <- Z.pow_mul_r, <- M by lia. rewrite (Zmod_div_mod r N) by (assumption || lia). rewrite E. apply Z.mod_1_l. lia. }
  assert (X : x mod r <> 1).
  { intros X. assert (Dx : (r | x - 1)) by (apply Z.mod_divide; [lia|]; rewrite Zminus_mod, X, Z.mod_1_l, Z.sub_diag by lia; apply Z.mod_0_l; lia).
    assert (Dg : (r | Z.gcd (x - 1) N)) by (apply Z.gcd_greatest; assumption). rewrite G in Dg. apply Z.divide_pos_le in Dg; lia. }
  destruct (Zdivide_dec q (r - 1)) as [Y|Y]; [exact Y|]. exfalso. apply X. apply (coprime_exponents x r q (r - 1)); try lia; try assumption.
  - apply prime_rel_prime; assumption.
  - apply fermat; [exact R|]. intros F. assert (Z0 : x mod r = 0) by (apply Z.mod_divide; [lia|exact F]). rewrite Zpower_mod, Z0, Z.pow_0_l, Z.mod_0_l in Er by lia. discriminate.
Qed.
(** Powers of 2 modulo an odd [N] without divisions (Montgomery): [redc k N x] is [x / 2^k] modulo [N], and [power k N e] is
    [2^e * 2^k] modulo [N]. *)
Fixpoint redc (k : nat) (N x : Z) : Z :=
  match k with O => x | S k' => redc k' N (Z.div2 (if Z.odd x then x + N else x)) end.
Lemma redc_spec k N : Z.odd N = true -> forall x, exists j, 2 ^ Z.of_nat k * redc k N x = x + j * N.
Proof.
  intros O. induction k as [|k IH]; intros x; cbn [redc]; [exists 0; change (2 ^ Z.of_nat 0) with 1; lia|]. rewrite Nat2Z.inj_succ, Z.pow_succ_r by lia.
  destruct (Z.odd x) eqn:X.
  - destruct (IH (Z.div2 (x + N))) as [j E]. exists (1 + 2 * j). rewrite <- Z.mul_assoc, E. assert (H := Z.div2_odd (x + N)). rewrite Z.odd_add, X, O in H. cbn [xorb Z.b2z] in H. lia.
  - destruct (IH (Z.div2 x)) as [j E]. exists (2 * j). rewrite <- Z.mul_assoc, E. assert (H := Z.div2_odd x). rewrite X in H. cbn [Z.b2z] in H. lia.
Qed.
Fixpoint power (k : nat) (N : Z) (e : positive) : Z :=
  match e with
  | xH => 2 ^ Z.of_nat (S k) mod N
  | xO e' => let m := power k N e' in redc k N (m * m)
  | xI e' => let m := power k N e' in 2 * redc k N (m * m)
  end.
Lemma odd_coprime k N : Z.odd N = true -> rel_prime (2 ^ Z.of_nat k) N.
Proof.
  intros O. assert (R : rel_prime N 2). { apply rel_prime_sym, prime_rel_prime; [exact prime_2|]. intros D. apply Z.mod_divide in D; [|lia]. rewrite Zmod_odd, O in D. discriminate. }
  induction k as [|k IH]; [apply rel_prime_1|]. rewrite Nat2Z.inj_succ, Z.pow_succ_r by lia. apply rel_prime_sym, rel_prime_mult; [exact R|apply rel_prime_sym; exact IH].
Qed.
(** [power] up to multiples of [N]. *)
Lemma power_spec k N e : Z.odd N = true -> (N | power k N e - 2 ^ Zpos e * 2 ^ Z.of_nat k).
Proof.
  intros O. set (R := 2 ^ Z.of_nat k).
  assert (S : forall m x, (N | m - x * R) -> (N | redc k N (m * m) - x * x * R)).
  { intros m x [t E]. destruct (redc_spec k N O (m * m)) as [j J]. fold R in J. apply (Gauss N R); [|apply rel_prime_sym, odd_coprime; exact O].
    exists (t * (m + x * R) + j). replace (R * (redc k N (m * m) - x * x * R)) with (R * redc k N (m * m) - (x * R) * (x * R)) by ring.
    rewrite J. replace (x * R) with (m - t * N) by lia. ring. }
  induction e as [e IH|e IH|]; cbn [power].
  - replace (Z.pos e~1) with (1 + Z.pos e + Z.pos e) by lia. rewrite !Z.pow_add_r by lia. apply S in IH. destruct IH as [t E]. exists (2 * t). change (2 ^ 1) with 2. lia.
  - replace (Z.pos e~0) with (Z.pos e + Z.pos e) by lia. rewrite Z.pow_add_r by lia. apply S. exact IH.
  - rewrite Nat2Z.inj_succ, Z.pow_succ_r by lia. fold R. change (2 ^ 1) with 2. exists (- (2 * R / N)). rewrite Z.mod_eq by (intros ->; discriminate). ring.
Qed.
Definition places (N : Z) : nat := Z.to_nat (Z.log2 N + 8).
(** [2^(N-1)] is 1 modulo [N]. *)
Definition fermat2 (N : Z) : bool :=
  Z.odd N && match N - 1 with Zpos e => (power (places N) N e - 2 ^ Z.of_nat (places N)) mod N =? 0 | _ => false end.
Lemma fermat2_spec N : 1 < N -> fermat2 N = true -> 2 ^ (N - 1) mod N = 1.
Proof.
  intros L. unfold fermat2. rewrite andb_true_iff. intros [O H]. destruct (N - 1) as [|e|e] eqn:E; try discriminate. apply Z.eqb_eq, Z.mod_divide in H; [|lia].
  pose proof (power_spec (places N) N e O) as P. set (R := 2 ^ Z.of_nat (places N)) in *.
  assert (D : (N | 2 ^ Zpos e - 1)).
  { apply (Gauss N R); [|apply rel_prime_sym, odd_coprime; exact O]. replace (R * (2 ^ Zpos e - 1)) with ((power (places N) N e - R) - (power (places N) N e - 2 ^ Zpos e * R)) by ring. apply Z.divide_sub_r; assumption. }
  destruct D as [t D]. replace (2 ^ Zpos e) with (1 + t * N) by lia. rewrite Z.mod_add, Z.mod_1_l by lia. reflexivity.
Qed.
(** [q] divides [N - 1], and [2^((N-1)/q) - 1] and [N] are coprime. *)
Definition witness (N q : Z) : bool :=
  ((N - 1) mod q =? 0) && match (N - 1) / q with Zpos e => Z.gcd (power (places N) N e - 2 ^ Z.of_nat (places N)) N =? 1 | _ => false end.
Lemma witness_divides N q r : 1 < N -> prime q -> prime r -> (r | N) -> fermat2 N = true -> witness N q = true -> (q | r - 1).
Proof.
  intros N1 Q R D F H. pose proof (prime_ge_2 _ Q). unfold witness in H. rewrite !andb_true_iff, Z.eqb_eq in H. destruct H as [H1 H3].
  apply (pock_divides N q 2 r); try assumption.
  - apply Z.mod_divide; [lia|exact H1].
  - apply fermat2_spec; assumption.
  - destruct ((N - 1) / q) as [|e|e]; try discriminate. apply Z.eqb_eq in H3. apply andb_prop in F as [O _]. pose proof (power_spec (places N) N e O) as P.
    set (M := 2 ^ Z.of_nat (places N)) in *. apply Zgcd_1_rel_prime in H3. apply Zgcd_1_rel_prime. apply bezout_rel_prime. apply rel_prime_bezout in H3. destruct H3 as [u v E]. destruct P as [t P].
    apply (Bezout_intro _ _ _ (u * M) (v + u * t)). replace (power (places N) N e) with (t * N + 2 ^ Zpos e * M) in E by lia. transitivity (u * (t * N + 2 ^ Zpos e * M - M) + v * N); [ring|exact E].
Qed.
Theorem pocklington1 N q : 1 < N -> prime q -> N < q * q -> fermat2 N = true -> witness N q = true -> prime N.
Proof.
  intros N1 Q S F W. destruct (prime_dec N) as [P|P]; [exact P|]. exfalso. destruct (small_divisor N N1 P) as (r & R & D & L).
  pose proof (witness_divides N q r N1 Q R D F W) as Y. pose proof (prime_ge_2 _ R). pose proof (prime_ge_2 _ Q). apply Z.divide_pos_le in Y; nia.
Qed.
Theorem pocklington2 N q q' : 1 < N -> prime q -> prime q' -> q <> q' -> N < (q * q') * (q * q') -> fermat2 N = true -> witness N q = true -> witness N q' = true -> prime N.
Proof.
  intros N1 Q Q' NE S F0 W W'. destruct (prime_dec N) as [P|P]; [exact P|]. exfalso. destruct (small_divisor N N1 P) as (r & R & D & L).
  pose proof (witness_divides N q r N1 Q R D F0 W) as Y. pose proof (witness_divides N q' r N1 Q' R D F0 W') as Y'. pose proof (prime_ge_2 _ R). pose proof (prime_ge_2 _ Q). pose proof (prime_ge_2 _ Q').
  assert (RP : rel_prime q q').
  { apply prime_rel_prime; [exact Q|]. intros E. apply prime_div_prime in E; auto. }
  destruct Y as [k K]. rewrite K, Z.mul_comm in Y'. apply Gauss in Y'; [|apply rel_prime_sym; exact RP]. destruct Y' as [j ->].
  assert (A : 0 < q * q') by nia. replace (j * q' * q) with (j * (q * q')) in K by ring. generalize dependent (q * q'). intros F S A K. assert (B : 0 < j) by nia.
  assert (1 * F <= j * F) by (apply Z.mul_le_mono_nonneg_r; lia). nia.
Qed.
(** Small primes by trial division. *)
Fixpoint no_divisor (n : nat) (d p : Z) : bool :=
  match n with O => true | S n' => negb (p mod d =? 0) && no_divisor n' (d + 1) p end.
Lemma no_divisor_all n : forall d p, no_divisor n d p = true -> 0 < d -> forall e, d <= e < d + Z.of_nat n -> ~ (e | p).
Proof.
  induction n as [|n IH]; intros d p H D e E; [lia|]. cbn [no_divisor] in H. apply andb_prop in H. destruct H as [H1 H2].
  destruct (Z.eq_dec e d) as [->|NE]; [|apply (IH (d + 1) p H2); lia]. intros F. apply Z.mod_divide in F; [|lia]. rewrite F in H1. discriminate.
Qed.
Lemma small_prime n p : 1 < p -> no_divisor n 2 p = true -> p < (2 + Z.of_nat n) * (2 + Z.of_nat n) -> prime p.
Proof.
  intros P H L. destruct (prime_dec p) as [Q|Q]; [exact Q|]. exfalso. destruct (small_divisor p P Q) as (r & R & D & S). pose proof (prime_ge_2 _ R).
  apply (no_divisor_all n 2 p H ltac:(lia) r); [nia|exact D].
Qed.

(** ** The primes *)
Lemma prime_991 : prime 991.
Proof. apply (small_prime 31); [lia|vm_compute; reflexivity|vm_compute; reflexivity]. Qed.
Lemma prime_103 : prime 103.
Proof. apply (small_prime 10); [lia|vm_compute; reflexivity|vm_compute; reflexivity]. Qed.
Lemma prime_8574133 : prime 8574133.
Proof. apply (pocklington2 _ 991 103); [reflexivity|exact prime_991|exact prime_103|discriminate|reflexivity|vm_compute; reflexivity|vm_compute; reflexivity|vm_compute; reflexivity]. Qed.
Lemma prime_127 : prime 127.
Proof. apply (small_prime 11); [lia|vm_compute; reflexivity|vm_compute; reflexivity]. Qed.
Lemma prime_1919519569386763 : prime 1919519569386763.
Proof. apply (pocklington2 _ 8574133 127); [reflexivity|exact prime_8574133|exact prime_127|discriminate|reflexivity|vm_compute; reflexivity|vm_compute; reflexivity|vm_compute; reflexivity]. Qed.
Lemma prime_569003 : prime 569003.
Proof. apply (small_prime 754); [lia|vm_compute; reflexivity|vm_compute; reflexivity]. Qed.
Lemma prime_2773320623 : prime 2773320623.
Proof. apply (pocklington1 _ 569003); [reflexivity|exact prime_569003|reflexivity|vm_compute; reflexivity|vm_compute; reflexivity]. Qed.
Lemma prime_72106336199 : prime 72106336199.
Proof. apply (pocklington1 _ 2773320623); [reflexivity|exact prime_2773320623|reflexivity|vm_compute; reflexivity|vm_compute; reflexivity]. Qed.
Lemma prime_75445702479781427272750846543864801 : prime 75445702479781427272750846543864801.
Proof. apply (pocklington2 _ 1919519569386763 72106336199); [reflexivity|exact prime_1919519569386763|exact prime_72106336199|discriminate|reflexivity|vm_compute; reflexivity|vm_compute; reflexivity|vm_compute; reflexivity]. Qed.
Lemma prime_353 : prime 353.
Proof. apply (small_prime 18); [lia|vm_compute; reflexivity|vm_compute; reflexivity]. Qed.
Lemma prime_74058212732561358302231226437062788676166966415465897661863160754340907 : prime 74058212732561358302231226437062788676166966415465897661863160754340907.
Proof. apply (pocklington2 _ 75445702479781427272750846543864801 353); [reflexivity|exact prime_75445702479781427272750846543864801|exact prime_353|discriminate|reflexivity|vm_compute; reflexivity|vm_compute; reflexivity|vm_compute; reflexivity]. Qed.
Lemma prime_P25519 : prime 57896044618658097711785492504343953926634992332820282019728792003956564819949.
Proof. apply (pocklington1 _ 74058212732561358302231226437062788676166966415465897661863160754340907); [reflexivity|exact prime_74058212732561358302231226437062788676166966415465897661863160754340907|reflexivity|vm_compute; reflexivity|vm_compute; reflexivity]. Qed.
Lemma prime_2551 : prime 2551.
Proof. apply (small_prime 50); [lia|vm_compute; reflexivity|vm_compute; reflexivity]. Qed.
Lemma prime_1224481 : prime 1224481.
Proof. apply (pocklington1 _ 2551); [reflexivity|exact prime_2551|reflexivity|vm_compute; reflexivity|vm_compute; reflexivity]. Qed.
Lemma prime_531581 : prime 531581.
Proof. apply (small_prime 729); [lia|vm_compute; reflexivity|vm_compute; reflexivity]. Qed.
Lemma prime_1257559732178653 : prime 1257559732178653.
Proof. apply (pocklington2 _ 1224481 531581); [reflexivity|exact prime_1224481|exact prime_531581|discriminate|reflexivity|vm_compute; reflexivity|vm_compute; reflexivity|vm_compute; reflexivity]. Qed.
Lemma prime_4434155615661930479 : prime 4434155615661930479.
Proof. apply (pocklington1 _ 1257559732178653); [reflexivity|exact prime_1257559732178653|reflexivity|vm_compute; reflexivity|vm_compute; reflexivity]. Qed.
Lemma prime_172054593956031949258510691 : prime 172054593956031949258510691.
Proof. apply (pocklington1 _ 4434155615661930479); [reflexivity|exact prime_4434155615661930479|reflexivity|vm_compute; reflexivity|vm_compute; reflexivity]. Qed.
Lemma prime_19757330305831588566944191468367130476339 : prime 19757330305831588566944191468367130476339.
Proof. apply (pocklington1 _ 172054593956031949258510691); [reflexivity|exact prime_172054593956031949258510691|reflexivity|vm_compute; reflexivity|vm_compute; reflexivity]. Qed.
Lemma prime_276602624281642239937218680557139826668747 : prime 276602624281642239937218680557139826668747.
Proof. apply (pocklington1 _ 19757330305831588566944191468367130476339); [reflexivity|exact prime_19757330305831588566944191468367130476339|reflexivity|vm_compute; reflexivity|vm_compute; reflexivity]. Qed.
Lemma prime_L25519 : prime 7237005577332262213973186563042994240857116359379907606001950938285454250989.
Proof. apply (pocklington1 _ 276602624281642239937218680557139826668747); [reflexivity|exact prime_276602624281642239937218680557139826668747|reflexivity|vm_compute; reflexivity|vm_compute; reflexivity]. Qed.
