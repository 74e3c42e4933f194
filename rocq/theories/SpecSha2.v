(** * SpecSha2: SHA-2 (FIPS 180-4), HMAC (RFC 2104) and PBKDF2 (RFC 8018) on bit strings, as the standards put it.
    Definitions only. *)
From Coq Require Import Ascii List ZArith NArith Bool.
From Verif Require Import PyBase SpecBase64.
Import ListNotations.
Local Open Scope Z_scope.

(** ** Bit strings, most significant bit first *)
Fixpoint bits (n : nat) (x : Z) : list bool := match n with O => [] | S n' => bits n' (x / 2) ++ [Z.odd x] end.
Definition value (l : list bool) : Z := fold_left (fun acc (b : bool) => 2 * acc + if b then 1 else 0) l 0.
Definition octet_bits (a : ascii) : list bool := bits 8 (number a).
Definition all_bits (m : bytes) : list bool := flat_map octet_bits m.
(** Consecutive pieces of [n] bits. *)
Definition parse (n : nat) (l : list bool) : list (list bool) := map (fun i => firstn n (skipn (i * n) l)) (seq 0 (length l / n)).
Definition xor_bits (a b : list bool) : list bool := map (fun p => xorb (fst p) (snd p)) (combine a b).

(** ** Constants (sections 4.2.2, 4.2.3, 5.3.3, 5.3.5): the first bits of the fractional parts of the square roots and cube roots
    of the first primes *)
Definition is_prime (p : Z) : bool := (1 <? p) && forallb (fun d => negb (p mod Z.of_nat d =? 0)) (seq 2 (Z.to_nat p - 2)).
Definition primes (n : nat) : list Z := firstn n (filter is_prime (map Z.of_nat (seq 0 420))).
(** The largest [c] of [n] bits with [c ^ e <= x]. *)
Fixpoint root (e : Z) (n : nat) (c x : Z) : Z :=
  match n with
  | O => c
  | S n' => let c' := c + 2 ^ Z.of_nat n' in root e n' (if c' ^ e <=? x then c' else c) x
  end.
Definition fraction (e : Z) (w : nat) (p : Z) : Z := root e (w + 8) 0 (p * 2 ^ (e * Z.of_nat w)) mod 2 ^ Z.of_nat w.

(** ** The functions of section 4.1, for words of [w] bits *)
Section Words.
  Variable w : nat.
  Definition add (x y : Z) : Z := (x + y) mod 2 ^ Z.of_nat w.
  Definition ROTR (n x : Z) : Z := x / 2 ^ n + x mod 2 ^ n * 2 ^ (Z.of_nat w - n).
  Definition SHR (n x : Z) : Z := x / 2 ^ n.
  Definition not (x : Z) : Z := 2 ^ Z.of_nat w - 1 - x.
  Definition Ch (x y z : Z) : Z := Z.lxor (Z.land x y) (Z.land (not x) z).
  Definition Maj (x y z : Z) : Z := Z.lxor (Z.lxor (Z.land x y) (Z.land x z)) (Z.land y z).
  Definition three_rotations (r : Z * Z * Z) (x : Z) : Z :=
    let '(a, b, c) := r in Z.lxor (Z.lxor (ROTR a x) (ROTR b x)) (ROTR c x).
  Definition two_rotations (r : Z * Z * Z) (x : Z) : Z :=
    let '(a, b, c) := r in Z.lxor (Z.lxor (ROTR a x) (ROTR b x)) (SHR c x).

  Variables S0 S1 s0 s1 : Z * Z * Z.
  (** Section 6.2.2, step 1: the words W_t, [n] of them after the first sixteen. *)
  Fixpoint schedule (n : nat) (block : list Z) : list Z :=
    match n with
    | O => block
    | S n' =>
        let W := schedule n' block in
        let t := (16 + n')%nat in
        W ++ [add (add (two_rotations s1 (nth (t - 2) W 0)) (nth (t - 7) W 0)) (add (two_rotations s0 (nth (t - 15) W 0)) (nth (t - 16) W 0))]
    end.
  (** Step 3, for one t. *)
  Definition round (st : list Z) (kw : Z * Z) : list Z :=
    match st with
    | [a; b; c; d; e; f; g; h] =>
        let T1 := add (add (add (add h (three_rotations S1 e)) (Ch e f g)) (fst kw)) (snd kw) in
        let T2 := add (three_rotations S0 a) (Maj a b c) in
        [add T1 T2; a; b; c; add d T1; e; f; g]
    | _ => []
    end.
  Variable K : list Z.
  (** Steps 2 to 4. *)
  Definition compress (H : list Z) (block : list Z) : list Z :=
    let W := schedule (length K - 16) block in
    map (fun p => add (fst p) (snd p)) (combine (fold_left round (combine K W) H) H).
  (** Section 5.1: append a 1, the least number of zeros, and the length, to a multiple of sixteen words. *)
  Definition pad (m : list bool) : list bool :=
    let l := Z.of_nat (length m) in
    m ++ [true] ++ repeat false (Z.to_nat ((14 * Z.of_nat w - (l + 1)) mod (16 * Z.of_nat w))) ++ bits (2 * w) l.
  Definition hash (H0 : list Z) (m : list bool) : list bool :=
    flat_map (bits w) (fold_left compress (map (fun b => map value (parse w b)) (parse (16 * w) (pad m))) H0).
End Words.

Definition sha256 : list bool -> list bool :=
  hash 32 (2, 13, 22) (6, 11, 25) (7, 18, 3) (17, 19, 10) (map (fraction 3 32) (primes 64)) (map (fraction 2 32) (primes 8)).
Definition sha512 : list bool -> list bool :=
  hash 64 (28, 34, 39) (14, 18, 41) (1, 8, 7) (19, 61, 6) (map (fraction 3 64) (primes 80)) (map (fraction 2 64) (primes 8)).

(** ** HMAC with SHA-256, whose blocks have 512 bits *)
Definition ipad : list bool := flat_map (fun _ => bits 8 54) (seq 0 64).
Definition opad : list bool := flat_map (fun _ => bits 8 92) (seq 0 64).
Definition block_key (key : list bool) : list bool :=
  let k := if (512 <? length key)%nat then sha256 key else key in k ++ repeat false (512 - length k).
Definition hmac_bits (key text : list bool) : list bool :=
  sha256 (xor_bits (block_key key) opad ++ sha256 (xor_bits (block_key key) ipad ++ text)).

(** ** PBKDF2: U_1, U_2, ...; the blocks T_i; the key *)
Fixpoint U (password salt : list bool) (i : Z) (j : nat) : list bool :=
  match j with
  | O => hmac_bits password (salt ++ bits 32 i)
  | S j' => hmac_bits password (U password salt i j')
  end.
Definition T (password salt : list bool) (c : nat) (i : Z) : list bool :=
  fold_left (fun acc j => xor_bits acc (U password salt i j)) (seq 1 (c - 1)) (U password salt i 0).
(** [n] octets of key: the first of as many blocks of 32 octets as are needed. *)
Definition pbkdf2_bits (password salt : list bool) (c : nat) (n : nat) : list bool :=
  firstn (8 * n) (flat_map (fun i => T password salt c (Z.of_nat i)) (seq 1 ((n + 31) / 32))).
