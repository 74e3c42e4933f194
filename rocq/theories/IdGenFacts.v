(** * IdGenFacts: lemmas for C20. *)
From Coq Require Import ZArith List Lia.
From Verif Require Import IdGen.
Import ListNotations.
Local Open Scope Z_scope.
Ltac Zify.zify_post_hook ::= Z.div_mod_to_equations.

Lemma next_id_range g : 0 <= g <= ID_MAX -> 1 <= fst (next_id g) <= ID_MAX /\ snd (next_id g) = fst (next_id g).
Proof.
  intros H. unfold next_id. cbn [fst snd]. split; [|reflexivity].
  destruct (g =? ID_MAX) eqn:E; [unfold ID_MAX; lia|apply Z.eqb_neq in E; lia].
Qed.

Lemma next_id_step g : 0 <= g <= ID_MAX -> snd (next_id g) = g mod ID_MAX + 1.
Proof.
  intros H. unfold next_id. cbn [snd]. destruct (g =? ID_MAX) eqn:E.
  - apply Z.eqb_eq in E. subst. rewrite Z.mod_same by (unfold ID_MAX; lia). lia.
  - apply Z.eqb_neq in E. rewrite Z.mod_small by lia. lia.
Qed.

Lemma next_ids_nth n : forall g k, 0 <= g <= ID_MAX -> (k < n)%nat ->
  nth_error (next_ids n g) k = Some ((g + Z.of_nat k) mod ID_MAX + 1).
Proof.
  induction n as [|n IH]; intros g k Hg Hk; [lia|]. cbn [next_ids].
  destruct (next_id g) as [g' i] eqn:E.
  pose proof (next_id_range g Hg) as Hr. pose proof (next_id_step g Hg) as Hs. rewrite E in Hr, Hs. cbn [fst snd] in *.
  destruct Hr as [Hr Heq]. subst i. destruct k as [|k]; cbn [nth_error].
  - rewrite Hs. replace (g + Z.of_nat 0) with g by lia. reflexivity.
  - rewrite IH by lia. f_equal. f_equal. rewrite Hs. unfold ID_MAX.
    replace (g mod 2 ^ 53 + 1 + Z.of_nat k) with (g mod 2 ^ 53 + (1 + Z.of_nat k)) by lia.
    replace (g + Z.of_nat (S k)) with (g + (1 + Z.of_nat k)) by lia.
    apply Z.add_mod_idemp_l. lia.
Qed.

Lemma next_ids_length n : forall g, length (next_ids n g) = n.
Proof. induction n as [|n IH]; intros g; cbn; [reflexivity|]. f_equal. apply IH. Qed.

Lemma mod_distinct a b m : 0 < m -> a mod m = b mod m -> a < b -> b - a < m -> False.
Proof.
  intros Hm He Hlt Hd.
  assert (H : (b - a) mod m = 0) by (rewrite Zminus_mod, He, Z.sub_diag, Z.mod_0_l; lia).
  rewrite Z.mod_small in H; lia.
Qed.

Lemma next_ids_distinct n g i j x : 0 <= g <= ID_MAX -> (i < j < n)%nat -> Z.of_nat j - Z.of_nat i < ID_MAX ->
  nth_error (next_ids n g) i = Some x -> nth_error (next_ids n g) j <> Some x.
Proof.
  intros Hg Hij Hd Hi Hj. rewrite next_ids_nth in Hi, Hj by lia.
  injection Hi as Hi. injection Hj as Hj.
  apply (mod_distinct (g + Z.of_nat i) (g + Z.of_nat j) ID_MAX); unfold ID_MAX in *; lia.
Qed.
