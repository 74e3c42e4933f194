(** * DictFacts: laws of the ordered dicts and int sets of PyBase. *)
From Coq Require Import String Ascii List ZArith Bool Lia.
From Verif Require Import PyBase.
Import ListNotations.
Local Open Scope Z_scope.

Definition eqb_ok {K} (eqb : K -> K -> bool) := forall a b, eqb a b = true <-> a = b.

Lemma Zeqb_ok : eqb_ok Z.eqb.
Proof. intros a b. apply Z.eqb_eq. Qed.
Lemma Seqb_ok : eqb_ok String.eqb.
Proof. intros a b. apply String.eqb_eq. Qed.
Lemma zz_eqb_ok : eqb_ok zz_eqb.
Proof.
  intros [a1 a2] [b1 b2]. unfold zz_eqb. cbn [fst snd]. rewrite andb_true_iff, !Z.eqb_eq.
  split; [intros [-> ->]; reflexivity|intros H; injection H; auto].
Qed.

Section Dict.
  Context {K V : Type} (eqb : K -> K -> bool) (E : eqb_ok eqb).
  Implicit Types (d : list (K * V)).
  Notation dget := (@dget K V eqb).
  Notation dset := (@dset K V eqb).
  Notation ddel := (@ddel K V eqb).
  Notation dmem := (@dmem K V eqb).

  Lemma eqb_spec a b : reflect (a = b) (eqb a b).
  Proof. apply iff_reflect. symmetry. apply E. Qed.
  Lemma eqb_same a : eqb a a = true.
  Proof. apply E. reflexivity. Qed.
  Lemma eqb_sym' a b : eqb a b = eqb b a.
  Proof. destruct (eqb_spec a b), (eqb_spec b a); congruence. Qed.

  Lemma dget_dset k v d k' : dget k' (dset k v d) = if eqb k' k then Some v else dget k' d.
  Proof.
    induction d as [|[k1 v1] d IH]; cbn [PyBase.dget PyBase.dset]; [reflexivity|].
    destruct (eqb_spec k k1) as [->|Hn].
    - cbn [PyBase.dget]. destruct (eqb_spec k' k1); reflexivity.
    - cbn [PyBase.dget]. destruct (eqb_spec k' k1) as [->|Hn'].
      + destruct (eqb_spec k1 k); [congruence|reflexivity].
      + exact IH.
  Qed.

  Lemma dget_In k v d : dget k d = Some v -> In (k, v) d.
  Proof.
    induction d as [|[k1 v1] d IH]; cbn [PyBase.dget]; [discriminate|].
    destruct (eqb_spec k k1) as [->|]; intros H; [injection H as ->; left; reflexivity|right; auto].
  Qed.
  Lemma dget_None k d : dget k d = None <-> ~ In k (map fst d).
  Proof.
    induction d as [|[k1 v1] d IH]; cbn [PyBase.dget map fst In]; [tauto|].
    destruct (eqb_spec k k1) as [->|Hn]; [split; [discriminate|tauto]|]. rewrite IH.
    split; [intros H [->|]; tauto|tauto].
  Qed.
  Lemma dget_Some_key k d : (exists v, dget k d = Some v) <-> In k (map fst d).
  Proof.
    destruct (dget k d) as [v|] eqn:G.
    - split; eauto. intros _. apply dget_In in G. apply in_map_iff. exists (k, v). auto.
    - apply dget_None in G. split; [intros [v H]; discriminate|tauto].
  Qed.
  Lemma In_dget k v d : NoDup (map fst d) -> In (k, v) d -> dget k d = Some v.
  Proof.
    induction d as [|[k1 v1] d IH]; cbn [PyBase.dget map fst In]; [tauto|].
    intros Hnd [H|H]; inversion Hnd as [|? ? Hni Hnd']; subst.
    - injection H as -> ->. rewrite eqb_same. reflexivity.
    - destruct (eqb_spec k k1) as [->|]; [|auto]. exfalso. apply Hni. apply in_map_iff. exists (k1, v). auto.
  Qed.
  Lemma dmem_true k d : dmem k d = true <-> In k (map fst d).
  Proof.
    unfold dmem. rewrite <- dget_Some_key. destruct (dget k d) as [v|].
    - split; eauto.
    - split; [discriminate|intros [v H]; discriminate].
  Qed.
  Lemma dmem_false k d : dmem k d = false <-> dget k d = None.
  Proof. unfold dmem. destruct (dget k d); split; congruence. Qed.

  Lemma keys_dset k v d : map fst (dset k v d) = if dmem k d then map fst d else map fst d ++ [k].
  Proof.
    unfold dmem. induction d as [|[k1 v1] d IH]; cbn [PyBase.dset PyBase.dget map fst]; [reflexivity|].
    destruct (eqb_spec k k1) as [->|Hn]; cbn [map fst]; [reflexivity|]. rewrite IH.
    destruct (dget k d); reflexivity.
  Qed.
  Lemma NoDup_snoc {A} (l : list A) x : NoDup l -> ~ In x l -> NoDup (l ++ [x]).
  Proof.
    intros Hl Hx. induction Hl as [|y l Hy Hl IH]; cbn.
    - constructor; [tauto|constructor].
    - constructor.
      + rewrite in_app_iff. cbn in *. intros [H|[H|[]]]; [auto|subst; tauto].
      + apply IH. cbn in Hx. tauto.
  Qed.
  Lemma NoDup_dset k v d : NoDup (map fst d) -> NoDup (map fst (dset k v d)).
  Proof.
    intros H. rewrite keys_dset. destruct (dmem k d) eqn:M; [exact H|].
    apply NoDup_snoc; [exact H|]. rewrite <- dmem_true. congruence.
  Qed.
  Lemma dset_absent k v d : dget k d = None -> dset k v d = d ++ [(k, v)].
  Proof.
    induction d as [|[k1 v1] d IH]; cbn [PyBase.dset PyBase.dget app]; [reflexivity|].
    destruct (eqb k k1); [discriminate|]. intros H. rewrite (IH H). reflexivity.
  Qed.
  Lemma dset_same k v d : dget k d = Some v -> dset k v d = d.
  Proof.
    induction d as [|[k1 v1] d IH]; cbn [PyBase.dset PyBase.dget]; [discriminate|].
    destruct (eqb k k1); [intros H; injection H as ->; reflexivity|]. intros H. rewrite (IH H). reflexivity.
  Qed.

  Lemma keys_ddel_In k d k' : In k' (map fst (ddel k d)) -> In k' (map fst d).
  Proof.
    induction d as [|[k1 v1] d IH]; cbn [PyBase.ddel map fst In]; [tauto|].
    destruct (eqb k k1); cbn [map fst In]; tauto.
  Qed.
  Lemma NoDup_ddel k d : NoDup (map fst d) -> NoDup (map fst (ddel k d)).
  Proof.
    induction d as [|[k1 v1] d IH]; cbn [PyBase.ddel map fst]; [auto|].
    intros H. apply NoDup_cons_iff in H. destruct H as [Hni Hnd]. destruct (eqb k k1); [exact Hnd|].
    cbn [map fst]. constructor; [|auto]. intros Hin. apply Hni. eapply keys_ddel_In, Hin.
  Qed.
  Lemma dget_ddel k d k' : NoDup (map fst d) -> dget k' (ddel k d) = if eqb k' k then None else dget k' d.
  Proof.
    induction d as [|[k1 v1] d IH]; cbn [PyBase.ddel PyBase.dget map fst].
    - destruct (eqb k' k); reflexivity.
    - intros H. apply NoDup_cons_iff in H. destruct H as [Hni Hnd]. destruct (eqb_spec k k1) as [->|Hn].
      + destruct (eqb_spec k' k1) as [He|]; [|reflexivity]. rewrite He. apply dget_None. exact Hni.
      + cbn [PyBase.dget]. destruct (eqb_spec k' k1) as [He|Hn'].
        * rewrite He. destruct (eqb_spec k1 k); [congruence|reflexivity].
        * auto.
  Qed.
  Lemma ddel_absent k d : dget k d = None -> ddel k d = d.
  Proof.
    induction d as [|[k1 v1] d IH]; cbn [PyBase.ddel PyBase.dget]; [reflexivity|].
    destruct (eqb k k1); [discriminate|]. intros H. rewrite (IH H). reflexivity.
  Qed.
  Lemma In_ddel k d p : In p (ddel k d) -> In p d.
  Proof.
    induction d as [|[k1 v1] d IH]; cbn [PyBase.ddel In]; [tauto|].
    destruct (eqb k k1); cbn [In]; tauto.
  Qed.
  Lemma In_dset k v d p : In p (dset k v d) -> p = (k, v) \/ In p d.
  Proof.
    induction d as [|[k1 v1] d IH]; cbn [PyBase.dset In]; [intros [H|[]]; auto|].
    destruct (eqb_spec k k1) as [->|]; cbn [In]; intros [H|H]; auto. destruct (IH H); auto.
  Qed.
  Lemma ddel_filter k d : NoDup (map fst d) -> ddel k d = filter (fun p => negb (eqb k (fst p))) d.
  Proof.
    induction d as [|[k1 v1] d IH]; cbn [PyBase.ddel filter map fst]; [reflexivity|].
    intros H. apply NoDup_cons_iff in H. destruct H as [Hni Hnd]. destruct (eqb_spec k k1) as [->|Hn]; cbn [negb].
    - clear -Hni E. induction d as [|[k2 v2] d IH]; [reflexivity|]. cbn [filter fst map] in *.
      destruct (eqb_spec k1 k2) as [->|]; cbn [negb]; [exfalso; apply Hni; left; reflexivity|].
      f_equal. apply IH. intros H. apply Hni. right. exact H.
    - rewrite IH by exact Hnd. reflexivity.
  Qed.
End Dict.

(** Int sets. *)
Lemma smem_In x s : smem x s = true <-> In x s.
Proof.
  unfold smem. rewrite existsb_exists. split.
  - intros (y & H & E). apply Z.eqb_eq in E. subst. exact H.
  - intros H. exists x. rewrite Z.eqb_refl. auto.
Qed.
Lemma smem_sadd x s y : smem y (sadd x s) = (y =? x) || smem y s.
Proof.
  unfold sadd. destruct (smem x s) eqn:M.
  - destruct (Z.eqb_spec y x) as [->|]; [rewrite M|]; reflexivity.
  - unfold smem. rewrite existsb_app. cbn. rewrite orb_false_r. apply orb_comm.
Qed.
Lemma NoDup_sadd x s : NoDup s -> NoDup (sadd x s).
Proof.
  intros H. unfold sadd. destruct (smem x s) eqn:M; [exact H|].
  apply NoDup_snoc; [exact H|]. rewrite <- smem_In. congruence.
Qed.
Lemma In_srem x s y : In y (srem x s) -> In y s.
Proof.
  induction s as [|z s IH]; cbn; [tauto|]. destruct (x =? z); cbn; tauto.
Qed.
Lemma NoDup_srem x s : NoDup s -> NoDup (srem x s).
Proof.
  induction s as [|z s IH]; cbn; [auto|]. intros H. inversion H; subst.
  destruct (x =? z); [assumption|]. constructor; [|auto]. intros Hin. apply In_srem in Hin. auto.
Qed.
Lemma smem_srem x s y : NoDup s -> smem y (srem x s) = negb (y =? x) && smem y s.
Proof.
  induction s as [|z s IH]; cbn [srem smem existsb].
  - intros _. rewrite andb_false_r. reflexivity.
  - intros H. apply NoDup_cons_iff in H. destruct H as [Hni Hnd]. destruct (Z.eqb_spec x z) as [->|Hn].
    + destruct (Z.eqb_spec y z) as [He|]; cbn [negb andb orb]; [rewrite He|reflexivity].
      destruct (existsb (Z.eqb z) s) eqn:Ex; [|reflexivity].
      exfalso. apply Hni. apply smem_In. exact Ex.
    + cbn [existsb]. specialize (IH Hnd). unfold smem in IH. rewrite IH.
      destruct (Z.eqb_spec y x) as [He|]; cbn [negb andb orb]; [rewrite He|reflexivity].
      destruct (Z.eqb_spec x z); [contradiction|reflexivity].
Qed.
