(** * BrokerTheorems: consequences of the broker invariant, in the form used by PropsBroker. *)
From Coq Require Import String Ascii List ZArith Bool Lia Arith.
From Verif Require Import PyBase Messages IdGen IdGenFacts Joiner DictFacts SpecHistory Broker SpecBroker BrokerRun BrokerFacts.
Import ListNotations.
Local Open Scope Z_scope.

Ltac start ops b h J := pose proof (brun_inv ops) as J; destruct (brun ops) as [b h]; cbn [fst snd] in J.

Lemma outcome_of b h o : BInv b h -> exists b' r, bstep b o = (b', r) /\ banswer b o = r /\ boutcome b o b' r.
Proof.
  intros (J & _). pose proof (bstep_outcome b o J) as H. unfold banswer. destruct (bstep b o) as [b' r]. exists b', r. auto.
Qed.

Lemma subs_lookup b h t : Shape b -> Track b h -> subscribers t h <> [] <-> exists l sub, lookup b t = Some (l, sub).
Proof.
  intros W T. rewrite <- (tr_subs _ _ T). unfold subs_of. destruct (lookup b t) as [[l sub]|] eqn:L.
  - apply (lookup_iff _ _ _ _ W) in L. split; [eauto|tauto].
  - split; [tauto|]. intros (l & sub & [=]).
Qed.
Lemma tget_lookup b t l : Shape b -> tget t (b_by_topic b) = Some l -> exists sub, lookup b t = Some (l, sub).
Proof. intros W H. destruct (sh_topic _ W _ _ H) as (sub & A & _). exists sub. unfold lookup. rewrite H, A. reflexivity. Qed.

(** What an accepted PUBLISH returns. *)
Lemma publish_result ops s m p : let (b, h) := brun ops in ids_issued h <= ID_MAX ->
  banswer b (BPub s m) = OPub p ->
  member s h = true /\
  pu_recipients p = subscribers (pb_topic m) h /\
  exists pid,
    pu_event p = match subscribers (pb_topic m) h with
                 | [] => None
                 | x :: _ => option_map (fun i => mkEvent (PyInt i) (PyInt pid) (pb_args m) (pb_kwargs m) [])
                               (subscribed_as x (pb_topic m) h)
                 end /\
    pu_ack p = (if truthy (sget_default "acknowledge" (VBool false) (pb_options m))
                then Some (mkRouted (Published (mkPublished (pb_request m) (PyInt pid))) s) else None) /\
    (ids_issued h < ID_MAX -> pid = ids_issued h + 1).
Proof.
  start ops b h J. intros Hmax Hr. destruct (outcome_of _ _ (BPub s m) J) as (b' & r' & Hst & Hb & H). rewrite Hr in Hb. subst r'.
  destruct J as ((W & _) & M & T). specialize (T Hmax).
  inversion H as [| | | | | | | | | | |s0 m0 own g pid H4 H5]; subst. split; [rewrite <- M, zmem_zget, H4; reflexivity|].
  rewrite <- (tr_subs _ _ T). unfold subs_of. cbn [pu_recipients pu_event pu_ack].
  assert (Q : match tget (pb_topic m) (b_by_topic b) with
      | Some l => match at_ b l with Some sub => names sub | None => [] end | None => [] end =
      match lookup b (pb_topic m) with Some (_, sub) => names sub | None => [] end).
  { unfold lookup. destruct (tget _ _) as [l|]; [|reflexivity]. destruct (at_ b l); reflexivity. }
  rewrite Q. split; [reflexivity|]. exists pid.
  split; [|split; [reflexivity|]].
  - destruct (lookup b (pb_topic m)) as [[l sub]|] eqn:L.
    + pose proof L as L'. apply (lookup_iff _ _ _ _ W) in L'. destruct L' as (A & B & C).
      destruct (names sub) as [|x xs] eqn:N; [congruence|]. rewrite <- (tr_id _ _ T). unfold id_of. rewrite L, N.
      cbn [smem existsb]. rewrite Z.eqb_refl. cbn [orb option_map].
      pose proof (sh_live _ W _ _ A) as Lv. rewrite B in Lv. rewrite Lv by congruence. rewrite A. reflexivity.
    + unfold lookup in L. destruct (tget _ _) as [l|] eqn:E; [|reflexivity].
      destruct (sh_topic _ W _ _ E) as (sub & A & _). rewrite A in L. discriminate.
  - intros Hlt. rewrite <- (tr_gen _ _ T) in *. rewrite next_id_fresh in H5 by lia. congruence.
Qed.

Lemma recipients ops s m p : let (b, h) := brun ops in ids_issued h <= ID_MAX -> banswer b (BPub s m) = OPub p ->
  pu_recipients p = subscribers (pb_topic m) h /\ NoDup (pu_recipients p) /\
  (pu_event p <> None <-> pu_recipients p <> []).
Proof.
  pose proof (publish_result ops s m p) as H. start ops b h J. intros Hmax Hr.
  destruct (H Hmax Hr) as (_ & R & pid & E & _). destruct J as ((W & _) & _ & T). specialize (T Hmax).
  split; [exact R|]. split.
  - rewrite R, <- (tr_subs _ _ T). unfold subs_of. destruct (lookup b (pb_topic m)) as [[l sub]|] eqn:L; [|constructor].
    apply (lookup_iff _ _ _ _ W) in L. apply (sh_nd_subs _ W l). tauto.
  - rewrite E, R. destruct (subscribers (pb_topic m) h) as [|x xs] eqn:Q; [tauto|].
    assert (Hx : In x (subscribers (pb_topic m) h)) by (rewrite Q; left; reflexivity).
    apply in_subscribers in Hx. destruct Hx as [i Hi]. rewrite Hi. cbn. split; discriminate.
Qed.

Lemma ids_agree b h s1 s2 t1 t2 i1 i2 : Shape b -> Track b h -> subscribed_as s1 t1 h = Some i1 -> subscribed_as s2 t2 h = Some i2 ->
  (i1 = i2 <-> t1 = t2).
Proof.
  intros W T. rewrite <- !(tr_id _ _ T). unfold id_of.
  destruct (lookup b t1) as [[l1 sub1]|] eqn:L1; [|discriminate]. destruct (lookup b t2) as [[l2 sub2]|] eqn:L2; [|discriminate].
  destruct (smem s1 _); [|discriminate]. destruct (smem s2 _); [|discriminate]. intros E1 E2. injection E1 as <-. injection E2 as <-.
  pose proof L1 as K1. pose proof L2 as K2. apply (lookup_iff _ _ _ _ W) in K1. apply (lookup_iff _ _ _ _ W) in K2.
  destruct K1 as (A1 & B1 & C1). destruct K2 as (A2 & B2 & C2). split.
  - intros E. pose proof (tr_inj _ _ T _ _ _ _ A1 A2 E). subst l2. congruence.
  - intros <-. congruence.
Qed.
Lemma ids_distinct ops s1 s2 t1 t2 i1 i2 : let (b, h) := brun ops in ids_issued h <= ID_MAX ->
  subscribed_as s1 t1 h = Some i1 -> subscribed_as s2 t2 h = Some i2 -> (i1 = i2 <-> t1 = t2).
Proof.
  start ops b h J. intros Hmax. destruct J as ((W & _) & _ & T). apply (ids_agree b); auto.
Qed.

Lemma subscribe_result ops s m : let (b, h) := brun ops in
  (member s h = true -> exists i, banswer b (BMsg s (Subscribe m)) =
      ORouted (mkRouted (Subscribed (mkSubscribed (su_request m) (PyInt i))) s)) /\
  (member s h = false -> exists e, banswer b (BMsg s (Subscribe m)) = OExn (ValueError [e])).
Proof.
  start ops b h J. destruct (outcome_of _ _ (BMsg s (Subscribe m)) J) as (b' & r' & Hst & Hb & H). rewrite Hb. destruct J as (_ & M & _).
  rewrite <- M, zmem_zget. inversion H; try subst b'; subst;
    try (match goal with X : forall x, Subscribe m <> Subscribe x |- _ => destruct (X m); reflexivity end);
    match goal with X : zget s _ = _ |- _ => rewrite X end; split; intros Q; try discriminate Q; eauto.
Qed.

Lemma subscribe_same_id ops s s' t i m r : let (b, h) := brun ops in ids_issued h <= ID_MAX ->
  subscribed_as s t h = Some i -> su_topic m = t -> banswer b (BMsg s' (Subscribe m)) = ORouted r ->
  r = mkRouted (Subscribed (mkSubscribed (su_request m) (PyInt i))) s'.
Proof.
  start ops b h J. intros Hmax Hi <- Hr. destruct (outcome_of _ _ (BMsg s' (Subscribe m)) J) as (b' & r' & Hst & Hb & H). rewrite Hr in Hb. subst r'.
  destruct J as ((W & _) & _ & T). specialize (T Hmax). rewrite <- (tr_id _ _ T) in Hi. unfold id_of, lookup in Hi.
  inversion H; try subst b'; subst.
  - match goal with A : tget _ _ = None |- _ => rewrite A in Hi end. discriminate.
  - match goal with A : tget _ _ = Some _, B : at_ _ _ = Some _ |- _ => rewrite A, B in Hi end.
    destruct (smem s _); [|discriminate]. injection Hi as <-. reflexivity.
Qed.

Lemma event_id ops s s' t i m p ev : let (b, h) := brun ops in ids_issued h <= ID_MAX ->
  subscribed_as s t h = Some i -> pb_topic m = t -> banswer b (BPub s' m) = OPub p -> pu_event p = Some ev ->
  ev_subscription ev = PyInt i.
Proof.
  pose proof (publish_result ops s' m p) as H. pose proof (ids_distinct ops) as D. start ops b h J. intros Hmax Hi <- Hr Hev.
  destruct (H Hmax Hr) as (_ & _ & pid & E & _). rewrite Hev in E. destruct (subscribers (pb_topic m) h) as [|x xs]; [discriminate|].
  destruct (subscribed_as x (pb_topic m) h) as [j|] eqn:Hj; [|discriminate]. cbn in E. injection E as ->. cbn. f_equal.
  apply (D x s (pb_topic m) (pb_topic m) j i Hmax Hj Hi). reflexivity.
Qed.

(** C50 *)
Lemma publish_content ops s m p : let (b, h) := brun ops in banswer b (BPub s m) = OPub p ->
  exists pid,
    (forall ev, pu_event p = Some ev ->
       ev_args ev = pb_args m /\ ev_kwargs ev = pb_kwargs m /\ ev_details ev = [] /\ ev_publication ev = PyInt pid) /\
    pu_ack p = (if match sget "acknowledge" (pb_options m) with Some v => truthy v | None => false end
                then Some (mkRouted (Published (mkPublished (pb_request m) (PyInt pid))) s) else None) /\
    (ids_issued h < ID_MAX -> ~ In pid (publications_seen h) /\ ~ In pid (subscriptions_seen h)).
Proof.
  start ops b h J. intros Hr. destruct (outcome_of _ _ (BPub s m) J) as (b' & r' & Hst & Hb & H). rewrite Hr in Hb. subst r'.
  destruct J as ((W & _) & M & T). inversion H as [| | | | | | | | | | |s0 m0 own g pid H4 H5]; subst. exists pid. cbn [pu_event pu_ack].
  split; [|split].
  - intros ev E. destruct (tget _ _) as [l|]; [|discriminate]. destruct (at_ b l); [|discriminate]. cbn in E. injection E as <-.
    repeat split.
  - unfold sget_default. destruct (sget "acknowledge" (pb_options m)); reflexivity.
  - intros Hlt. specialize (T (Z.lt_le_incl _ _ Hlt)). rewrite <- (tr_gen _ _ T) in Hlt. rewrite next_id_fresh in H5 by exact Hlt.
    injection H5 as <- <-. split; intros Hin.
    + pose proof (tr_seen _ _ T _ (or_introl Hin)). lia.
    + pose proof (tr_seen _ _ T _ (or_intror Hin)). lia.
Qed.

(** C51 *)
Lemma unsubscribe_ok ops s m : let (b, h) := brun ops in ids_issued h <= ID_MAX ->
  (banswer b (BMsg s (Unsubscribe m)) = ORouted (mkRouted (Unsubscribed (mkUnsubscribed (us_request m))) s) <->
   exists t, subscribed_as s t h = Some (pyint_Z (us_subscription m))) /\
  ((exists r, banswer b (BMsg s (Unsubscribe m)) = ORouted r) <->
   exists t, subscribed_as s t h = Some (pyint_Z (us_subscription m))).
Proof.
  start ops b h J. intros Hmax. destruct (outcome_of _ _ (BMsg s (Unsubscribe m)) J) as (b' & r' & Hst & Hb & H). rewrite Hb.
  destruct J as ((W & O & _) & _ & T). specialize (T Hmax).
  assert (Key : (exists t, subscribed_as s t h = Some (pyint_Z (us_subscription m))) <->
                exists own l, zget s (b_by_session b) = Some own /\ zget (pyint_Z (us_subscription m)) own = Some l).
  { split.
    - intros [t Ht]. rewrite <- (tr_id _ _ T) in Ht. unfold id_of in Ht.
      destruct (lookup b t) as [[l sub]|] eqn:L; [|discriminate]. destruct (smem s (names sub)) eqn:Q; [|discriminate].
      injection Ht as <-. apply smem_In in Q. apply (lookup_iff _ _ _ _ W) in L. destruct L as (A & _).
      destruct (tr_all _ _ T _ _ _ A Q) as (own & G1 & G2). eauto.
    - intros (own & l & G1 & G2). destruct (ow_own _ O _ _ _ _ G1 G2) as (sub & A & B & C). exists (sub_topic sub).
      rewrite <- (tr_id _ _ T). unfold id_of.
      assert (L : lookup b (sub_topic sub) = Some (l, sub)).
      { apply lookup_iff; [exact W|]. repeat split; auto. intros E. rewrite E in C. exact C. }
      rewrite L. apply smem_In in C. rewrite C, B. reflexivity. }
  rewrite Key. inversion H; try subst b'; subst.
  - assert (NK : ~ exists own l, zget s (b_by_session b) = Some own /\ zget (pyint_Z (us_subscription m)) own = Some l).
    { intros (own & l & G1 & G2). match goal with X : forall own, zget s _ = Some own -> _ |- _ => apply X in G1 end. congruence. }
    split; (split; [|tauto]).
    + discriminate.
    + intros [? [=]].
  - split; split; eauto.
  - match goal with X : forall x, Unsubscribe m <> Unsubscribe x |- _ => destruct (X m); reflexivity end.
Qed.

Lemma has_subscription_iff ops t : let (b, h) := brun ops in ids_issued h <= ID_MAX ->
  has_subscription b t = true <-> subscribers t h <> [].
Proof.
  start ops b h J. intros Hmax. destruct J as ((W & _) & _ & T). specialize (T Hmax). rewrite (subs_lookup b) by auto.
  unfold has_subscription, tmem, dmem. change (@dget string nat String.eqb) with (@tget nat).
  destruct (tget t (b_by_topic b)) as [l|] eqn:E.
  - destruct (tget_lookup _ _ _ W E) as [sub L]. split; eauto.
  - split; [discriminate|]. intros (l & sub & L). unfold lookup in L. rewrite E in L. discriminate.
Qed.

(** Recipients after one more operation. *)
Lemma recipients_after_unsubscribe ops s m r s' pm p q : let (b, h) := brun ops in ids_issued h <= ID_MAX ->
  banswer b (BMsg s (Unsubscribe m)) = ORouted r ->
  banswer b (BPub s' pm) = OPub p -> banswer (fst (brun (ops ++ [BMsg s (Unsubscribe m)]))) (BPub s' pm) = OPub q ->
  (subscribed_as s (pb_topic pm) h = Some (pyint_Z (us_subscription m)) ->
     In s (pu_recipients p) /\ pu_recipients q = without s (pu_recipients p)) /\
  (subscribed_as s (pb_topic pm) h <> Some (pyint_Z (us_subscription m)) -> pu_recipients q = pu_recipients p).
Proof.
  pose proof (recipients ops s' pm p) as R1. pose proof (recipients (ops ++ [BMsg s (Unsubscribe m)]) s' pm q) as R2.
  pose proof (unsubscribe_ok ops s m) as U.
  rewrite brun_snoc in *. destruct (brun ops) as [b h]. cbn [fst snd] in *. intros Hmax Hu Hp Hq.
  fold (banswer b (BMsg s (Unsubscribe m))) in *.
  destruct (U Hmax) as [_ U2]. assert (Hr : r = mkRouted (Unsubscribed (mkUnsubscribed (us_request m))) s).
  { destruct U2 as [U2 _]. destruct (U Hmax) as [U1 _]. assert (Q := proj2 U1 (U2 (ex_intro _ r Hu))). congruence. }
  subst r. rewrite Hu in R2.
  destruct (R1 Hmax Hp) as (P1 & _). destruct (R2 ltac:(cbn [ids_issued takes_id subscribes]; lia) Hq) as (P2 & _). rewrite P1, P2.
  cbn [subscribers subscribes unsubscribes]. split; intros Hs.
  - split; [apply in_subscribers; eauto|]. rewrite Hs, Z.eqb_refl. reflexivity.
  - destruct (subscribed_as s (pb_topic pm) h) as [j|]; [|reflexivity].
    destruct (Z.eqb_spec (pyint_Z (us_subscription m)) j); [congruence|reflexivity].
Qed.

Lemma recipients_after_leave ops s s' pm p q : let (b, h) := brun ops in ids_issued h <= ID_MAX ->
  banswer b (BLeave s) = ODone ->
  banswer b (BPub s' pm) = OPub p -> banswer (fst (brun (ops ++ [BLeave s]))) (BPub s' pm) = OPub q ->
  pu_recipients q = without s (pu_recipients p).
Proof.
  pose proof (recipients ops s' pm p) as R1. pose proof (recipients (ops ++ [BLeave s]) s' pm q) as R2.
  rewrite brun_snoc in *. destruct (brun ops) as [b h]. cbn [fst snd] in *. intros Hmax Hu Hp Hq.
  fold (banswer b (BLeave s)) in *. rewrite Hu in R2.
  destruct (R1 Hmax Hp) as (P1 & _). destruct (R2 ltac:(cbn [ids_issued takes_id subscribes]; lia) Hq) as (P2 & _). rewrite P1, P2. reflexivity.
Qed.

(** C52 *)
Lemma membership ops : let (b, h) := brun ops in
  (forall d, banswer b (BJoin d) = ODone <-> member (pyint_Z (det_session d)) h = false) /\
  (forall s, banswer b (BLeave s) = ODone <-> member s h = true) /\
  (forall s m, (exists r, banswer b (BMsg s (Subscribe m)) = ORouted r) <-> member s h = true) /\
  (forall s m, (exists p, banswer b (BPub s m) = OPub p) <-> member s h = true) /\
  (forall s m, (exists r, banswer b (BMsg s (Unsubscribe m)) = ORouted r) -> member s h = true) /\
  (forall s m, (forall x, m <> Subscribe x) -> (forall x, m <> Unsubscribe x) ->
     banswer b (BMsg s m) = OExn (ValueError ["message type not supported"%string])).
Proof.
  start ops b h J. pose proof (fun o => outcome_of _ _ o J) as H. destruct J as (_ & M & _).
  repeat match goal with |- _ /\ _ => split end.
  - intros d. rewrite <- M. destruct (H (BJoin d)) as (b' & r' & Hst & Hb & H'). rewrite Hb. inversion H'; try subst b'; subst.
    + match goal with X : zget _ _ = _ |- _ => rewrite zmem_zget, X end. tauto.
    + match goal with X : zmem _ _ = _ |- _ => rewrite X end. split; discriminate.
  - intros s. rewrite <- M, zmem_zget. destruct (H (BLeave s)) as (b' & r' & Hst & Hb & H'). rewrite Hb. inversion H'; try subst b'; subst.
    + match goal with X : zget _ _ = _ |- _ => rewrite X end. tauto.
    + match goal with X : zget _ _ = _ |- _ => rewrite X end. split; discriminate.
  - intros s m. rewrite <- M, zmem_zget. destruct (H (BMsg s (Subscribe m))) as (b' & r' & Hst & Hb & H'). rewrite Hb. inversion H'; try subst b'; subst.
    + match goal with X : zget _ _ = _ |- _ => rewrite X end. split; [intros [? [=]]|discriminate].
    + match goal with X : zget s _ = Some _ |- _ => rewrite X end. split; eauto.
    + match goal with X : zget s _ = Some _ |- _ => rewrite X end. split; eauto.
    + match goal with X : forall x, Subscribe m <> Subscribe x |- _ => destruct (X m); reflexivity end.
  - intros s m. rewrite <- M, zmem_zget. destruct (H (BPub s m)) as (b' & r' & Hst & Hb & H'). rewrite Hb. inversion H'; try subst b'; subst.
    + match goal with X : zget _ _ = _ |- _ => rewrite X end. split; [intros [? [=]]|discriminate].
    + match goal with X : zget s _ = Some _ |- _ => rewrite X end. split; eauto.
  - intros s m [r Hr]. rewrite <- M, zmem_zget. destruct (H (BMsg s (Unsubscribe m))) as (b' & r' & Hst & Hb & H'). rewrite Hr in Hb. subst r'. inversion H'; try subst b'; subst.
    match goal with X : zget s _ = Some _ |- _ => rewrite X end. reflexivity.
  - intros s m N1 N2. destruct (H (BMsg s m)) as (b' & r' & Hst & Hb & H'). rewrite Hb. inversion H'; try subst b'; subst; try reflexivity.
    1-3: destruct (N1 m0); reflexivity.
    1-2: destruct (N2 m0); reflexivity.
Qed.

(** C53 *)
Lemma only_value_errors ops o e : let b := fst (brun ops) in
  banswer b o = OExn e -> (exists msg, e = ValueError [msg]) /\ fst (bstep b o) = b.
Proof.
  cbn zeta. start ops b h J. cbn [fst]. intros He. destruct (outcome_of _ _ o J) as (b' & r' & Hst & Hb & H). rewrite He in Hb. subst r'.
  rewrite Hst. inversion H; try subst b'; subst; eauto.
Qed.

(** C54 *)
Lemma own_event ops s m p i : let (b, h) := brun ops in ids_issued h <= ID_MAX ->
  subscribed_as s (pb_topic m) h = Some i -> banswer b (BPub s m) = OPub p -> In s (pu_recipients p).
Proof.
  pose proof (recipients ops s m p) as R. start ops b h J. intros Hmax Hi Hp. destruct (R Hmax Hp) as (-> & _).
  apply in_subscribers. eauto.
Qed.

(** C49: many publishes in a row. *)
Lemma publish_many s m n : forall b h, zmem s (b_by_session b) = true -> (forall t, tget t (b_by_topic b) = None \/ exists l sub, lookup b t = Some (l, sub)) ->
  0 <= b_idgen b -> b_idgen b + Z.of_nat n <= ID_MAX ->
  let bh := fold_left bstep_h (repeat (BPub s m) n) (b, h) in
  fst bh = set_bidgen b (b_idgen b + Z.of_nat n) /\
  (forall s' t, subscribed_as s' t (snd bh) = subscribed_as s' t h) /\
  (forall s', member s' (snd bh) = member s' h).
Proof.
  induction n as [|n IH]; intros b h Hs Ht H0 Hmax.
  - cbn. split; [|auto]. rewrite Z.add_0_r. destruct b; reflexivity.
  - cbn [repeat fold_left].
    assert (Hstep : exists p, bstep b (BPub s m) = (set_bidgen b (b_idgen b + 1), OPub p)).
    { cbn [bstep]. unfold b_receive_publish. rewrite Hs. cbn [negb]. rewrite next_id_fresh by lia.
      cbn [set_bidgen b_by_topic b_heap]. destruct (Ht (pb_topic m)) as [E|(l & sub & E)].
      - rewrite E. cbn. eauto.
      - unfold lookup in E. destruct (tget _ _) as [l'|]; [|cbn; eauto]. unfold at_ in E. destruct (nth_error _ _); [|discriminate]. cbn. eauto. }
    destruct Hstep as [p Hstep].
    assert (Hh : bstep_h (b, h) (BPub s m) = (set_bidgen b (b_idgen b + 1), (BPub s m, OPub p) :: h))
      by (unfold bstep_h; cbn [fst snd]; rewrite Hstep; reflexivity).
    rewrite Hh.
    destruct (IH (set_bidgen b (b_idgen b + 1)) ((BPub s m, OPub p) :: h)) as (A & B & C).
    + exact Hs.
    + exact Ht.
    + cbn. lia.
    + cbn [set_bidgen b_idgen]. lia.
    + cbn zeta in *. split; [|split; assumption]. etransitivity; [exact A|]. unfold set_bidgen. cbn [b_heap b_by_topic b_by_session b_sessions b_idgen]. f_equal. lia.
Qed.

(** The id counter wraps: 2**53 - 1 publishes between two subscriptions give both the id 1. *)
Section Wrap.
  Local Open Scope string_scope.
  Definition w_join n := BJoin (mkDetails (PyInt n) "realm" None None).
  Definition w_sub s t := BMsg s (Subscribe (mkSubscribe (PyInt 1) t [])).
  Definition w_pub := BPub 2 (mkPublish (PyInt 1) "x" None None []).
  Definition w_event := BPub 2 (mkPublish (PyInt 1) "a" None None []).
  Definition w_prefix : list bop := [w_join 1; w_join 2; w_sub 1 "a"].
  Definition w_ops (n : nat) : list bop := (w_prefix ++ repeat w_pub n ++ [w_sub 1 "b"])%list.

  Definition w_b : broker := fst (brun w_prefix).
  Definition w_h : bhistory := snd (brun w_prefix).

  Lemma w_after n : Z.of_nat n = ID_MAX - 1 ->
    let bh := fold_left bstep_h (repeat w_pub n) (brun w_prefix) in
    fst bh = set_bidgen w_b ID_MAX /\
    (forall s t, subscribed_as s t (snd bh) = subscribed_as s t w_h) /\ (forall s, member s (snd bh) = member s w_h).
  Proof.
    intros Hn. pose proof (publish_many 2 (mkPublish (PyInt 1) "x" None None []) n w_b w_h) as H.
    destruct H as (A & B & C).
    - reflexivity.
    - intros t. destruct (tget t (b_by_topic w_b)) as [l|] eqn:E; [right|auto]. apply tget_lookup in E; [destruct E as [sub L]; eauto|].
      apply (brun_inv w_prefix).
    - cbn. lia.
    - change (b_idgen w_b) with 1. lia.
    - cbn zeta. replace (brun w_prefix) with (w_b, w_h) by reflexivity. split; [|split; [exact B|exact C]].
      etransitivity; [exact A|]. change (b_idgen w_b) with 1. f_equal. lia.
  Qed.
  Lemma w_split n : brun (w_ops n) = bstep_h (fold_left bstep_h (repeat w_pub n) (brun w_prefix)) (w_sub 1 "b").
  Proof. unfold brun, w_ops. rewrite !fold_left_app. reflexivity. Qed.

  Lemma wrap_collision : exists ops s t1 t2 i, let h := snd (brun ops) in
    t1 <> t2 /\ subscribed_as s t1 h = Some i /\ subscribed_as s t2 h = Some i.
  Proof.
    assert (Hn : Z.of_nat (Z.to_nat (ID_MAX - 1)) = ID_MAX - 1) by (apply Z2Nat.id; unfold ID_MAX; lia).
    generalize dependent (Z.to_nat (ID_MAX - 1)). intros n Hn.
    exists (w_ops n), 1, "a", "b", 1. cbn zeta. rewrite w_split. destruct (w_after n Hn) as (A & B & C).
    destruct (fold_left bstep_h (repeat w_pub n) (brun w_prefix)) as [b h]. cbn [fst snd] in A, B, C. subst b.
    split; [discriminate|].
    assert (E : bstep_h (set_bidgen w_b ID_MAX, h) (w_sub 1 "b") =
      (fst (bstep (set_bidgen w_b ID_MAX) (w_sub 1 "b")),
       (w_sub 1 "b", ORouted (mkRouted (Subscribed (mkSubscribed (PyInt 1) (PyInt 1))) 1)) :: h)) by reflexivity.
    rewrite E. cbn [snd]. split; [|reflexivity].
    transitivity (subscribed_as 1 "a" h); [reflexivity|]. rewrite B. reflexivity.
  Qed.

  (** ... after which the first subscription outlives the session. *)
  Lemma wrap_ghost : exists ops s p, let (b, h) := brun ops in
    member s h = false /\ banswer b w_event = OPub p /\ In s (pu_recipients p).
  Proof.
    assert (Hn : Z.of_nat (Z.to_nat (ID_MAX - 1)) = ID_MAX - 1) by (apply Z2Nat.id; unfold ID_MAX; lia).
    generalize dependent (Z.to_nat (ID_MAX - 1)). intros n Hn.
    exists (w_ops n ++ [BLeave 1])%list, 1,
      (mkPublication (Some (mkEvent (PyInt 1) (PyInt 2) None None [])) [1] None).
    rewrite brun_snoc, w_split. destruct (w_after n Hn) as (A & B & C).
    destruct (fold_left bstep_h (repeat w_pub n) (brun w_prefix)) as [b h]. cbn [fst snd] in A, B, C. subst b.
    set (x := bstep_h (set_bidgen w_b ID_MAX, h) (w_sub 1 "b")).
    assert (E : x = (fst (bstep (set_bidgen w_b ID_MAX) (w_sub 1 "b")),
       (w_sub 1 "b", ORouted (mkRouted (Subscribed (mkSubscribed (PyInt 1) (PyInt 1))) 1)) :: h)) by reflexivity.
    rewrite E. clear x E. cbn [fst snd]. split; [reflexivity|]. split; [reflexivity|]. left. reflexivity.
  Qed.
End Wrap.
