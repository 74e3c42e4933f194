(** * BitFacts: arithmetic readings of the bit operations used by the models. *)
From Coq Require Import ZArith Lia Ascii List Bool.
From Verif Require Import PyBase Rawsocket.
Import ListNotations.
Local Open Scope Z_scope.

Lemma testbit_high n s i : 0 <= n < 2 ^ s -> 0 <= s -> s <= i -> Z.testbit n i = false.
Proof.
  intros Hn Hs Hi. destruct (Z.eq_dec n 0) as [->|Hz]; [apply Z.bits_0|].
  apply Z.bits_above_log2; [lia|]. apply Z.log2_lt_pow2; [lia|].
  apply Z.lt_le_trans with (2 ^ s); [lia|]. apply Z.pow_le_mono_r; lia.
Qed.

Lemma lor_shiftl_add n b s : 0 <= s -> 0 <= n < 2 ^ s -> 0 <= b -> Z.lor n (Z.shiftl b s) = n + b * 2 ^ s.
Proof.
  intros Hs Hn Hb.
  assert (HL : Z.land n (Z.shiftl b s) = 0).
  { apply Z.bits_inj'. intros i Hi. rewrite Z.land_spec, Z.bits_0.
    destruct (Z.lt_ge_cases i s) as [H|H].
    - rewrite Z.shiftl_spec_low by lia. apply andb_false_r.
    - rewrite (testbit_high n s i) by lia. reflexivity. }
  rewrite <- (Z.shiftl_mul_pow2 b s) by lia.
  rewrite <- Z.lxor_lor by exact HL. symmetry. apply Z.add_nocarry_lxor. exact HL.
Qed.

Lemma land_255 x : Z.land x 255 = x mod 256.
Proof. change 255 with (Z.ones 8). rewrite Z.land_ones by lia. reflexivity. Qed.
Lemma land_15 x : Z.land x 15 = x mod 16.
Proof. change 15 with (Z.ones 4). rewrite Z.land_ones by lia. reflexivity. Qed.
Lemma shiftr_div x s : 0 <= s -> Z.shiftr x s = x / 2 ^ s.
Proof. apply Z.shiftr_div_pow2. Qed.

Lemma byte_range a : 0 <= byte_Z a < 256.
Proof.
  unfold byte_Z. pose proof (N_ascii_bounded a) as H. lia.
Qed.
Lemma byte_of_Z z : 0 <= z < 256 -> byte_Z (ascii_of_N (Z.to_N z)) = z.
Proof. intros H. unfold byte_Z. rewrite N_ascii_embedding by lia. lia. Qed.
Lemma byte_to_ascii a : ascii_of_N (Z.to_N (byte_Z a)) = a.
Proof. unfold byte_Z. rewrite N2Z.id. apply ascii_N_embedding. Qed.
Lemma byte_Z_inj a b : byte_Z a = byte_Z b -> a = b.
Proof. intros H. rewrite <- (byte_to_ascii a), <- (byte_to_ascii b), H. reflexivity. Qed.

Lemma py_bytes_ok l : Forall (fun z => 0 <= z < 256) l -> py_bytes l = Ok (map (fun z => ascii_of_N (Z.to_N z)) l).
Proof.
  induction 1 as [|z l Hz Hl IH]; [reflexivity|]. cbn [py_bytes map].
  destruct ((0 <=? z) && (z <? 256)) eqn:E.
  - rewrite IH. reflexivity.
  - apply andb_false_iff in E. rewrite Z.leb_gt, Z.ltb_ge in E. lia.
Qed.

Lemma py_bytes_bad z l1 l2 : Forall (fun z => 0 <= z < 256) l1 -> ~ (0 <= z < 256) ->
  exists s, py_bytes (l1 ++ z :: l2) = Raise (ValueError s).
Proof.
  induction 1 as [|y l Hy Hl IH]; intros Hz; cbn [app py_bytes].
  - destruct ((0 <=? z) && (z <? 256)) eqn:E; [|eexists; reflexivity].
    apply andb_true_iff in E. rewrite Z.leb_le, Z.ltb_lt in E. lia.
  - destruct ((0 <=? y) && (y <? 256)) eqn:E.
    + destruct (IH Hz) as [s ->]. eexists. reflexivity.
    + apply andb_false_iff in E. rewrite Z.leb_gt, Z.ltb_ge in E. lia.
Qed.
