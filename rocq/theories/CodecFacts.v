(** * CodecFacts: induction over nested values and dict building, shared by the three codecs. *)
From Coq Require Import String Ascii List ZArith Bool Lia.
From Verif Require Import PyBase DictFacts Rawsocket Encoding EncodingFacts Utf8 CodecBase SpecCodec.
Import ListNotations.
Local Open Scope Z_scope.

Section Ind.
  Context (P : val -> Prop).
  Context (Hnone : P VNone) (Hbool : forall b, P (VBool b)) (Hint : forall z, P (VInt z)) (Hfloat : forall f, P (VFloat f))
          (Hstr : forall s, P (VStr s)) (Hbytes : forall b, P (VBytes b)) (Hother : forall t b, P (VOther t b)).
  Context (Hlist : forall l, Forall P l -> P (VList l))
          (Hdict : forall d, Forall (fun kv => P (fst kv) /\ P (snd kv)) d -> P (VDict d)).
  Fixpoint val_nested (v : val) : P v :=
    match v with
    | VNone => Hnone
    | VBool b => Hbool b
    | VInt z => Hint z
    | VFloat f => Hfloat f
    | VStr s => Hstr s
    | VBytes b => Hbytes b
    | VOther t b => Hother t b
    | VList l =>
        Hlist l ((fix go l : Forall P l := match l with [] => Forall_nil _ | x :: l' => Forall_cons x (val_nested x) (go l') end) l)
    | VDict d =>
        Hdict d ((fix go d : Forall (fun kv => P (fst kv) /\ P (snd kv)) d :=
                    match d with
                    | [] => Forall_nil _
                    | (k, x) :: d' => Forall_cons (k, x) (conj (val_nested k) (val_nested x)) (go d')
                    end) d)
    end.
End Ind.

Lemma everywhere_list P l : everywhere P (VList l) <-> P (VList l) /\ Forall (everywhere P) l.
Proof.
  cbn [everywhere]. apply and_iff_compat_l. induction l as [|x l IH]; [split; auto|].
  split; [intros [A B]; constructor; tauto|intros A; inversion A; subst; tauto].
Qed.
Lemma everywhere_dict P d :
  everywhere P (VDict d) <-> P (VDict d) /\ Forall (fun kv => everywhere P (fst kv) /\ everywhere P (snd kv)) d.
Proof.
  cbn [everywhere]. apply and_iff_compat_l. induction d as [|[k x] d IH]; [split; auto|].
  split; [intros (A & B & C); constructor; tauto|intros A; inversion A; subst; tauto].
Qed.
Lemma everywhere_here P v : everywhere P v -> P v.
Proof. destruct v; cbn [everywhere]; tauto. Qed.
Lemma everywhere_imp (P Q : val -> Prop) : (forall v, P v -> Q v) -> forall v, everywhere P v -> everywhere Q v.
Proof.
  intros PQ v. induction v using val_nested; try (cbn [everywhere]; intuition (auto; fail)).
  - rewrite !everywhere_list. intros [A B]. split; [auto|]. rewrite Forall_forall in *. auto.
  - rewrite !everywhere_dict. intros [A B]. split; [auto|]. rewrite Forall_forall in *.
    intros kv I. specialize (B kv I). specialize (H kv I). tauto.
Qed.

Lemma depth_list l n : (depth (VList l) <= n)%nat -> Forall (fun x => S (depth x) <= n)%nat l.
Proof. cbn [depth]. induction l as [|x l IH]; intros H; constructor; [lia|]. apply IH. lia. Qed.
Lemma depth_dict d n : (depth (VDict d) <= n)%nat -> Forall (fun kv => S (depth (fst kv)) <= n /\ S (depth (snd kv)) <= n)%nat d.
Proof. cbn [depth]. induction d as [|[k x] d IH]; intros H; constructor; [cbn [fst snd]; lia|]. apply IH. lia. Qed.
Lemma depth_list_le l n : Forall (fun x => S (depth x) <= n)%nat l -> (depth (VList l) <= n)%nat.
Proof. cbn [depth]. induction l as [|x l IH]; intros H; [lia|]. inversion H; subst. specialize (IH H3). lia. Qed.
Lemma depth_dict_le d n :
  Forall (fun kv => S (depth (fst kv)) <= n /\ S (depth (snd kv)) <= n)%nat d -> (depth (VDict d) <= n)%nat.
Proof. cbn [depth]. induction d as [|[k x] d IH]; intros H; [lia|]. inversion H; subst. cbn [fst snd] in *. specialize (IH H3). lia. Qed.

Lemma bytes_eqb_eq a b : bytes_eqb a b = true <-> a = b.
Proof. unfold bytes_eqb. destruct (list_eq_dec ascii_dec a b); split; congruence. Qed.

(** Building a dict from entries with different keys keeps them in order. *)
Lemma vset_new k x d : (forall k', In k' (map fst d) -> key_eqb k k' = false) -> vset k x d = d ++ [(k, x)].
Proof.
  unfold vset. induction d as [|[k' x'] d IH]; intros H; cbn [dset]; [reflexivity|].
  cbn [map fst] in H. rewrite (H k') by (left; reflexivity). cbn [app]. rewrite IH; [reflexivity|]. intros; apply H; right; assumption.
Qed.
Lemma text_key_eqb a b : text_key a -> key_eqb a b = true -> a = b.
Proof.
  destruct a, b; cbn; try tauto; try discriminate; intros _ H; f_equal; [apply String.eqb_eq; exact H|apply bytes_eqb_eq; exact H].
Qed.
