(** * BrokerFacts: invariants of the broker and their consequences. *)
From Coq Require Import String Ascii List ZArith Bool Lia Arith.
From Verif Require Import PyBase Messages IdGen IdGenFacts Joiner DictFacts SpecHistory Broker SpecBroker BrokerRun.
Import ListNotations.
Local Open Scope Z_scope.

(** ** Heap *)
Lemma put_length {A} (l : list A) n x : length (put l n x) = length l.
Proof. revert n. induction l as [|y l IH]; intros [|n]; cbn; auto. Qed.
Lemma nth_put_same {A} (l : list A) n x y : nth_error l n = Some y -> nth_error (put l n x) n = Some x.
Proof. revert n. induction l as [|z l IH]; intros [|n]; cbn; try discriminate; auto. Qed.
Lemma nth_put_other {A} (l : list A) n m x : m <> n -> nth_error (put l n x) m = nth_error l m.
Proof.
  revert n m. induction l as [|z l IH]; intros [|n] [|m] H; cbn; try reflexivity; try congruence. apply IH. congruence.
Qed.
Lemma nth_put {A} (l : list A) n m x y : nth_error l n = Some y ->
  nth_error (put l n x) m = if Nat.eqb m n then Some x else nth_error l m.
Proof.
  intros H. destruct (Nat.eqb_spec m n) as [->|Hn]; [eapply nth_put_same; eauto|apply nth_put_other; auto].
Qed.
Lemma nth_snoc {A} (l : list A) x m :
  nth_error (l ++ [x]) m = if Nat.eqb m (length l) then Some x else nth_error l m.
Proof.
  destruct (Nat.eqb_spec m (length l)) as [->|Hn].
  - rewrite nth_error_app2, Nat.sub_diag by lia. reflexivity.
  - destruct (Nat.lt_ge_cases m (length l)); [apply nth_error_app1; auto|].
    rewrite nth_error_app2 by lia. destruct (m - length l)%nat eqn:E; [lia|]. cbn.
    transitivity (@None A); [destruct n; reflexivity|]. symmetry. apply nth_error_None. lia.
Qed.

(** ** Invariant, part 1: shape (holds in every reachable state, without any bound). *)
Definition at_ (b : broker) l := nth_error (b_heap b) l.
Definition names (sub : subscription) : list Z := map fst (sub_subscribers sub).

Record Shape (b : broker) : Prop := {
  sh_topic : forall t l, tget t (b_by_topic b) = Some l ->
    exists sub, at_ b l = Some sub /\ sub_topic sub = t /\ names sub <> [];
  sh_live : forall l sub, at_ b l = Some sub -> names sub <> [] -> tget (sub_topic sub) (b_by_topic b) = Some l;
  sh_nd_topic : NoDup (map fst (b_by_topic b));
  sh_nd_subs : forall l sub, at_ b l = Some sub -> NoDup (names sub) }.

Record Own (b : broker) : Prop := {
  ow_own : forall s m i l, zget s (b_by_session b) = Some m -> zget i m = Some l ->
    exists sub, at_ b l = Some sub /\ sub_id sub = i /\ In s (names sub);
  ow_nd_session : NoDup (map fst (b_by_session b));
  ow_nd_own : forall s m, zget s (b_by_session b) = Some m -> NoDup (map fst m) }.

Record Sess (b : broker) : Prop := {
  se_same : forall s, zmem s (b_sessions b) = zmem s (b_by_session b);
  se_nd : NoDup (map fst (b_sessions b));
  se_nd' : NoDup (map fst (b_by_session b)) }.

Lemma names_nil sub : names sub = [] <-> sub_subscribers sub = [].
Proof. unfold names. destruct (sub_subscribers sub); cbn; split; congruence. Qed.

Lemma names_zdel s d : NoDup (map fst d) -> map fst (@zdel Z s d) = without s (map fst d).
Proof.
  intros H. unfold zdel. rewrite (ddel_filter _ Zeqb_ok) by exact H. unfold without.
  clear H. induction d as [|[k v] d IH]; cbn; [reflexivity|]. rewrite (Z.eqb_sym k s).
  destruct (s =? k); cbn; rewrite IH; reflexivity.
Qed.

Lemma In_without x s l : In x (without s l) <-> In x l /\ x <> s.
Proof.
  unfold without. rewrite filter_In. destruct (Z.eqb_spec x s); cbn; intuition congruence.
Qed.
Lemma without_id s l : ~ In s l -> without s l = l.
Proof.
  unfold without. induction l as [|x l IH]; cbn; [reflexivity|]. intros H.
  destruct (Z.eqb_spec x s) as [->|]; cbn; [tauto|]. rewrite IH; tauto.
Qed.
Lemma NoDup_without s l : NoDup l -> NoDup (without s l).
Proof. apply NoDup_filter. Qed.

(** Removing [s] from the subscription at [l], and the subscription if it became empty. *)
Lemma drop_ok b l sub s : Shape b -> at_ b l = Some sub -> In s (names sub) ->
  let sub' := mkSub (sub_id sub) (sub_topic sub) (zdel s (sub_subscribers sub)) in
  exists b', drop_topic_if_empty (set_bheap b (put (b_heap b) l sub')) sub' = (b', Ok tt) /\ Shape b' /\
    b_by_session b' = b_by_session b /\ b_sessions b' = b_sessions b /\ b_idgen b' = b_idgen b /\
    names sub' = without s (names sub) /\
    (forall l', at_ b' l' = if Nat.eqb l' l then Some sub' else at_ b l').
Proof.
  intros W Hl Hs sub'.
  assert (Ht : tget (sub_topic sub) (b_by_topic b) = Some l).
  { apply (sh_live _ W); [exact Hl|]. intros E. rewrite E in Hs. exact Hs. }
  assert (Hn : names sub' = without s (names sub)).
  { unfold names, sub'. cbn [sub_subscribers]. apply names_zdel. exact (sh_nd_subs _ W _ _ Hl). }
  assert (Hheap : forall l', nth_error (put (b_heap b) l sub') l' = if Nat.eqb l' l then Some sub' else at_ b l').
  { intros l'. apply (nth_put _ _ _ _ sub). exact Hl. }
  assert (Hnd : forall l0 sub0, (if Nat.eqb l0 l then Some sub' else at_ b l0) = Some sub0 -> NoDup (names sub0)).
  { intros l0 sub0 H. destruct (Nat.eqb_spec l0 l) as [->|].
    - injection H as <-. rewrite Hn. apply NoDup_without, (sh_nd_subs _ W _ _ Hl).
    - exact (sh_nd_subs _ W _ _ H). }
  unfold drop_topic_if_empty. destruct (sub_subscribers sub') as [|x r] eqn:E.
  - cbn [set_bheap b_by_topic sub_topic sub'].
    assert (M : tmem (sub_topic sub) (b_by_topic b) = true).
    { unfold tmem, dmem. change (@dget string nat String.eqb) with (@tget nat). rewrite Ht. reflexivity. }
    rewrite M. eexists. split; [reflexivity|]. cbn [set_btopic b_by_session b_sessions b_idgen].
    repeat split; try reflexivity; try assumption; cbn [b_by_topic b_heap set_btopic set_bheap].
    + intros t l0 H. unfold tget, tdel in H. rewrite (dget_ddel _ Seqb_ok) in H by exact (sh_nd_topic _ W).
      destruct (String.eqb_spec t (sub_topic sub)); [discriminate|].
      destruct (sh_topic _ W _ _ H) as (sub0 & A & B & C). exists sub0. split; [|auto].
      unfold at_. cbn [b_heap set_btopic set_bheap]. rewrite Hheap. destruct (Nat.eqb_spec l0 l) as [->|]; [|exact A]. congruence.
    + intros l0 sub0 H Hne. unfold at_ in H. cbn [b_heap set_btopic set_bheap] in H. rewrite Hheap in H.
      destruct (Nat.eqb_spec l0 l) as [->|Hd].
      * injection H as <-. apply names_nil in E. congruence.
      * pose proof (sh_live _ W _ _ H Hne) as L. unfold tget, tdel.
        rewrite (dget_ddel _ Seqb_ok) by exact (sh_nd_topic _ W).
        destruct (String.eqb_spec (sub_topic sub0) (sub_topic sub)) as [Q|]; [|exact L].
        rewrite Q in L. congruence.
    + apply NoDup_ddel. exact (sh_nd_topic _ W).
    + intros l0 sub0 H. unfold at_ in H. cbn [b_heap set_btopic set_bheap] in H. rewrite Hheap in H. eauto.
  - eexists. split; [reflexivity|]. repeat split; try reflexivity; try assumption; cbn [b_by_topic b_heap set_bheap].
    + intros t l0 H. destruct (sh_topic _ W _ _ H) as (sub0 & A & B & C). unfold at_. cbn [b_heap set_bheap]. rewrite Hheap.
      destruct (Nat.eqb_spec l0 l) as [->|]; [|eauto]. exists sub'. split; [reflexivity|]. split.
      * cbn [sub_topic sub']. rewrite Hl in A. injection A as ->. exact B.
      * rewrite names_nil, E. discriminate.
    + intros l0 sub0 H Hne. unfold at_ in H. cbn [b_heap set_bheap] in H. rewrite Hheap in H.
      destruct (Nat.eqb_spec l0 l) as [->|Hd]; [|exact (sh_live _ W _ _ H Hne)].
      injection H as <-. exact Ht.
    + exact (sh_nd_topic _ W).
    + intros l0 sub0 H. unfold at_ in H. cbn [b_heap set_bheap] in H. rewrite Hheap in H. eauto.
Qed.

Definition minus (s : Z) (sub : subscription) : subscription :=
  mkSub (sub_id sub) (sub_topic sub) (zdel s (sub_subscribers sub)).

Lemma remove_all_ok sid ls : forall b, Shape b -> NoDup (map fst ls) ->
  (forall i l, In (i, l) ls -> exists sub, at_ b l = Some sub /\ sub_id sub = i /\ In sid (names sub)) ->
  exists b', remove_all sid b ls = (b', Ok tt) /\ Shape b' /\
    b_by_session b' = b_by_session b /\ b_sessions b' = b_sessions b /\ b_idgen b' = b_idgen b /\
    (forall l, at_ b' l = if in_dec Nat.eq_dec l (map snd ls) then option_map (minus sid) (at_ b l) else at_ b l).
Proof.
  induction ls as [|[i l] ls IH]; intros b W Hnd Hls.
  - exists b. cbn. repeat split; auto using sh_nd_topic; try apply W.
  - cbn [remove_all]. destruct (Hls i l (or_introl eq_refl)) as (sub & Hl & Hi & Hs).
    assert (Ht : tget (sub_topic sub) (b_by_topic b) = Some l).
    { apply (sh_live _ W); [exact Hl|]. intros E. rewrite E in Hs. exact Hs. }
    unfold remove_one. unfold at_ in Hl. rewrite Hl, Ht, Hl.
    assert (M : zmem sid (sub_subscribers sub) = true) by (apply (dmem_true _ Zeqb_ok); exact Hs).
    rewrite M. destruct (drop_ok b l sub sid W Hl Hs) as (b1 & R & W1 & E1 & E2 & E3 & Hn & H1). cbn zeta in *.
    rewrite R. cbn [map fst] in Hnd. apply NoDup_cons_iff in Hnd. destruct Hnd as [Hni Hnd].
    assert (Hfresh : forall i' l', In (i', l') ls -> l' <> l).
    { intros i' l' Hin ->. destruct (Hls i' l (or_intror Hin)) as (sub2 & A & B & _).
      unfold at_ in A. rewrite Hl in A. injection A as <-. subst i' i. apply Hni. apply in_map_iff.
      exists (sub_id sub, l). auto. }
    assert (Hl1 : forall i' l', In (i', l') ls ->
              exists sub0, at_ b1 l' = Some sub0 /\ sub_id sub0 = i' /\ In sid (names sub0)).
    { intros i' l' Hin. rewrite H1. destruct (Nat.eqb_spec l' l) as [E|]; [destruct (Hfresh _ _ Hin E)|].
      apply (Hls i' l'). right. exact Hin. }
    destruct (IH b1 W1 Hnd Hl1) as (b2 & R2 & W2 & F1 & F2 & F3 & H2).
    exists b2. split; [exact R2|]. split; [exact W2|]. repeat split; try congruence.
    intros l'. rewrite H2, H1. cbn [map snd].
    destruct (in_dec Nat.eq_dec l' (map snd ls)) as [Hin|Hnin]; destruct (in_dec Nat.eq_dec l' (l :: map snd ls)) as [Hin'|Hnin'].
    + destruct (Nat.eqb_spec l' l) as [->|]; [|reflexivity]. apply in_map_iff in Hin.
      destruct Hin as ([i' l''] & Q & Hin). cbn in Q. subst l''. destruct (Hfresh _ _ Hin eq_refl).
    + destruct Hnin'. right. exact Hin.
    + destruct Hin' as [<-|]; [|tauto]. rewrite Nat.eqb_refl. unfold at_. rewrite Hl. reflexivity.
    + destruct (Nat.eqb_spec l' l) as [->|]; [|reflexivity]. destruct Hnin'. left. reflexivity.
Qed.

(** ** What one call does, in a state of the right shape. *)
Definition Inv1 (b : broker) := Shape b /\ Own b /\ Sess b.

Inductive boutcome (b : broker) : bop -> broker -> bout -> Prop :=
| bo_join d : zget (pyint_Z (det_session d)) (b_by_session b) = None ->
    boutcome b (BJoin d)
      (mkBroker (b_heap b) (b_by_topic b) (zset (pyint_Z (det_session d)) [] (b_by_session b))
         (zset (pyint_Z (det_session d)) d (b_sessions b)) (b_idgen b)) ODone
| bo_join_bad d : zmem (pyint_Z (det_session d)) (b_by_session b) = true ->
    boutcome b (BJoin d) b (OExn (ValueError ["cannot add session twice"%string]))
| bo_leave s own b' : zget s (b_by_session b) = Some own -> Shape b' ->
    b_by_session b' = zdel s (b_by_session b) -> b_sessions b' = zdel s (b_sessions b) -> b_idgen b' = b_idgen b ->
    (forall l, at_ b' l =
       if in_dec Nat.eq_dec l (map snd own) then option_map (minus s) (at_ b l) else at_ b l) ->
    boutcome b (BLeave s) b' ODone
| bo_leave_bad s : zget s (b_by_session b) = None ->
    boutcome b (BLeave s) b (OExn (ValueError ["cannot remove non-existing session"%string]))
| bo_sub_bad s m e : zget s (b_by_session b) = None ->
    boutcome b (BMsg s (Subscribe m)) b (OExn (ValueError [e]))
| bo_sub_new s m own id g : zget s (b_by_session b) = Some own -> tget (su_topic m) (b_by_topic b) = None ->
    next_id (b_idgen b) = (g, id) ->
    boutcome b (BMsg s (Subscribe m))
      (mkBroker (b_heap b ++ [mkSub id (su_topic m) [(s, s)]])
         (tset (su_topic m) (length (b_heap b)) (b_by_topic b))
         (zset s (zset id (length (b_heap b)) own) (b_by_session b)) (b_sessions b) g)
      (ORouted (mkRouted (Subscribed (mkSubscribed (su_request m) (PyInt id))) s))
| bo_sub_old s m own l sub : zget s (b_by_session b) = Some own ->
    tget (su_topic m) (b_by_topic b) = Some l -> at_ b l = Some sub -> sub_topic sub = su_topic m ->
    boutcome b (BMsg s (Subscribe m))
      (mkBroker (put (b_heap b) l (mkSub (sub_id sub) (sub_topic sub) (zset s s (sub_subscribers sub))))
         (b_by_topic b) (zset s (zset (sub_id sub) l own) (b_by_session b)) (b_sessions b) (b_idgen b))
      (ORouted (mkRouted (Subscribed (mkSubscribed (su_request m) (PyInt (sub_id sub)))) s))
| bo_unsub_bad s m e : (forall own, zget s (b_by_session b) = Some own -> zget (pyint_Z (us_subscription m)) own = None) ->
    boutcome b (BMsg s (Unsubscribe m)) b (OExn (ValueError [e]))
| bo_unsub s m own l sub b' : zget s (b_by_session b) = Some own ->
    zget (pyint_Z (us_subscription m)) own = Some l -> at_ b l = Some sub ->
    sub_id sub = pyint_Z (us_subscription m) -> In s (names sub) -> Shape b' ->
    b_by_session b' = zset s (zdel (pyint_Z (us_subscription m)) own) (b_by_session b) ->
    b_sessions b' = b_sessions b -> b_idgen b' = b_idgen b ->
    (forall l', at_ b' l' = if Nat.eqb l' l then Some (minus s sub) else at_ b l') ->
    boutcome b (BMsg s (Unsubscribe m)) b' (ORouted (mkRouted (Unsubscribed (mkUnsubscribed (us_request m))) s))
| bo_msg_bad s m : (forall x, m <> Subscribe x) -> (forall x, m <> Unsubscribe x) ->
    boutcome b (BMsg s m) b (OExn (ValueError ["message type not supported"%string]))
| bo_pub_bad s m e : zget s (b_by_session b) = None -> boutcome b (BPub s m) b (OExn (ValueError [e]))
| bo_pub s m own g pid : zget s (b_by_session b) = Some own -> next_id (b_idgen b) = (g, pid) ->
    boutcome b (BPub s m) (set_bidgen b g)
      (OPub (mkPublication
        (match tget (pb_topic m) (b_by_topic b) with
         | Some l => option_map (fun sub => mkEvent (PyInt (sub_id sub)) (PyInt pid) (pb_args m) (pb_kwargs m) [])
                       (at_ b l)
         | None => None
         end)
        (match tget (pb_topic m) (b_by_topic b) with
         | Some l => match at_ b l with Some sub => names sub | None => [] end
         | None => []
         end)
        (if truthy (sget_default "acknowledge" (VBool false) (pb_options m))
         then Some (mkRouted (Published (mkPublished (pb_request m) (PyInt pid))) s) else None))).

Lemma Shape_sets b ss se : Shape b -> Shape (mkBroker (b_heap b) (b_by_topic b) ss se (b_idgen b)).
Proof. intros [A B C D]. split; assumption. Qed.
Lemma zmem_zget {V} s (d : list (Z * V)) : zmem s d = match zget s d with Some _ => true | None => false end.
Proof. reflexivity. Qed.

Lemma bstep_outcome b o : Inv1 b -> boutcome b o (fst (bstep b o)) (snd (bstep b o)).
Proof.
  intros (W & O & S). destruct o as [d|s|s m|s m]; cbn [bstep].
  - unfold b_add_session. destruct (zmem _ _) eqn:M; cbn [fst snd out_of bad].
    + apply bo_join_bad. exact M.
    + apply bo_join. apply (dmem_false _). exact M.
  - unfold b_remove_session. destruct (zget s (b_by_session b)) as [own|] eqn:G; cbn [fst snd out_of bad];
      [|apply bo_leave_bad; exact G].
    set (b0 := set_bsession b (zdel s (b_by_session b))).
    assert (W0 : Shape b0) by (apply (Shape_sets b); exact W).
    assert (H0 : forall i l, In (i, l) own -> exists sub, at_ b0 l = Some sub /\ sub_id sub = i /\ In s (names sub)).
    { intros i l Hin. apply (ow_own _ O s own); [exact G|]. apply (In_dget _ Zeqb_ok); [exact (ow_nd_own _ O _ _ G)|exact Hin]. }
    destruct (remove_all_ok s own b0 W0 (ow_nd_own _ O _ _ G) H0) as (b1 & R & W1 & E1 & E2 & E3 & H1).
    rewrite R. rewrite E2. cbn [b0 set_bsession b_sessions]. rewrite (se_same _ S), zmem_zget, G.
    cbn [fst snd out_of]. eapply bo_leave; [exact G| | | | |].
    + apply Shape_sets with (b := b1). exact W1.
    + exact E1.
    + reflexivity.
    + exact E3.
    + exact H1.
  - destruct m; cbn [b_receive_message]; try (cbn [fst snd out_of bad]; apply bo_msg_bad; discriminate).
    + unfold b_subscribe. destruct (zget s (b_by_session b)) as [own|] eqn:G; [|cbn [fst snd out_of bad]; apply bo_sub_bad; exact G].
      destruct (tget (su_topic m) (b_by_topic b)) as [l|] eqn:T.
      * destruct (sh_topic _ W _ _ T) as (sub & A & B & C). unfold at_ in A. rewrite A. cbn [fst snd out_of].
        exact (bo_sub_old b s m own l sub G T A B).
      * destruct (next_id (b_idgen b)) as [g id] eqn:N. cbn [fst snd out_of]. exact (bo_sub_new b s m own id g G T N).
    + unfold b_unsubscribe. destruct (zget s (b_by_session b)) as [own|] eqn:G;
        [|cbn [fst snd out_of bad]; apply bo_unsub_bad; congruence].
      destruct (zget (pyint_Z (us_subscription m)) own) as [l|] eqn:L;
        [|cbn [fst snd out_of bad]; apply bo_unsub_bad; congruence].
      destruct (ow_own _ O _ _ _ _ G L) as (sub & A & B & C). unfold at_ in A. rewrite A.
      assert (M : zmem s (sub_subscribers sub) = true) by (apply (dmem_true _ Zeqb_ok); exact C).
      rewrite M. cbn [negb]. destruct (drop_ok b l sub s W A C) as (b1 & R & W1 & E1 & E2 & E3 & Hn & H1).
      cbn zeta in R. rewrite R. cbn [fst snd out_of]. eapply bo_unsub; try eassumption.
      * apply Shape_sets with (b := b1). exact W1.
      * cbn [set_bsession b_by_session]. rewrite E1. reflexivity.
  - unfold b_receive_publish. rewrite zmem_zget. destruct (zget s (b_by_session b)) as [own|] eqn:G; cbn [negb];
      [|cbn [fst snd out_of bad]; apply bo_pub_bad; exact G].
    destruct (next_id (b_idgen b)) as [g pid] eqn:N. pose proof (bo_pub b s m own g pid G N) as P.
    cbn [set_bidgen b_by_topic b_heap]. destruct (tget (pb_topic m) (b_by_topic b)) as [l|] eqn:T; [|exact P].
    destruct (sh_topic _ W _ _ T) as (sub & A & _). unfold at_ in A. rewrite A. unfold at_ in P. rewrite A in P. exact P.
Qed.

Lemma names_zset s sub : names (mkSub (sub_id sub) (sub_topic sub) (zset s s (sub_subscribers sub))) =
  if smem s (names sub) then names sub else names sub ++ [s].
Proof.
  unfold names. cbn [sub_subscribers]. unfold zset. rewrite (keys_dset _ Zeqb_ok).
  destruct (dmem Z.eqb s (sub_subscribers sub)) eqn:M; destruct (smem s (map fst (sub_subscribers sub))) eqn:M'; try reflexivity.
  - apply (dmem_true _ Zeqb_ok) in M. apply smem_In in M. congruence.
  - apply smem_In in M'. apply (dmem_true _ Zeqb_ok) in M'. congruence.
Qed.
Lemma In_names_zset x s sub : In x (names (mkSub (sub_id sub) (sub_topic sub) (zset s s (sub_subscribers sub)))) <->
  x = s \/ In x (names sub).
Proof.
  rewrite names_zset. destruct (smem s (names sub)) eqn:M.
  - apply smem_In in M. split; [auto|]. intros [->|]; auto.
  - rewrite in_app_iff. cbn. split; intuition congruence.
Qed.
Lemma In_names_minus x s sub : NoDup (names sub) -> In x (names (minus s sub)) <-> In x (names sub) /\ x <> s.
Proof.
  intros H. unfold names at 1, minus. cbn [sub_subscribers]. rewrite names_zdel by exact H. apply In_without.
Qed.
Lemma zget_zset {V} k v (d : list (Z * V)) k' : zget k' (zset k v d) = if k' =? k then Some v else zget k' d.
Proof. apply (dget_dset _ Zeqb_ok). Qed.
Lemma zget_zdel {V} k (d : list (Z * V)) k' : NoDup (map fst d) ->
  zget k' (zdel k d) = if k' =? k then None else zget k' d.
Proof. apply (dget_ddel _ Zeqb_ok). Qed.
Lemma tget_tset {V} k v (d : list (string * V)) k' : tget k' (tset k v d) = if String.eqb k' k then Some v else tget k' d.
Proof. apply (dget_dset _ Seqb_ok). Qed.

Lemma Shape_step b o b' r : Inv1 b -> boutcome b o b' r -> Shape b'.
Proof.
  intros (W & O & S) H. destruct H; try exact W; try assumption.
  - apply (Shape_sets b). exact W.
  - (* new subscription *) split; unfold at_; cbn [b_heap b_by_topic].
    + intros t l H2. rewrite tget_tset in H2. rewrite nth_snoc. destruct (String.eqb_spec t (su_topic m)) as [->|].
      * injection H2 as <-. rewrite Nat.eqb_refl. eexists. split; [reflexivity|]. split; [reflexivity|discriminate].
      * destruct (sh_topic _ W _ _ H2) as (sub & A & B & C). exists sub.
        destruct (Nat.eqb_spec l (length (b_heap b))) as [->|]; [|auto].
        assert (nth_error (b_heap b) (length (b_heap b)) = None) by (apply nth_error_None; lia). unfold at_ in A. congruence.
    + intros l sub H2 Hne. rewrite nth_snoc in H2. rewrite tget_tset.
      destruct (Nat.eqb_spec l (length (b_heap b))) as [->|].
      * injection H2 as <-. cbn [sub_topic]. rewrite String.eqb_refl. reflexivity.
      * pose proof (sh_live _ W _ _ H2 Hne) as L. destruct (String.eqb_spec (sub_topic sub) (su_topic m)) as [E|]; [|exact L].
        rewrite E in L. congruence.
    + apply (NoDup_dset _ Seqb_ok). exact (sh_nd_topic _ W).
    + intros l sub H2. rewrite nth_snoc in H2. destruct (Nat.eqb_spec l (length (b_heap b))) as [->|].
      * injection H2 as <-. cbn. constructor; [intros []|constructor].
      * exact (sh_nd_subs _ W _ _ H2).
  - (* joining a subscription *) split; unfold at_; cbn [b_heap b_by_topic].
    + intros t l0 H3. rewrite (nth_put _ _ _ _ _ H1). destruct (sh_topic _ W _ _ H3) as (sub0 & A & B & C).
      destruct (Nat.eqb_spec l0 l) as [->|]; [|eauto]. eexists. split; [reflexivity|].
      rewrite H1 in A. injection A as <-. split; [exact B|]. rewrite names_zset. destruct (smem s (names sub)); [exact C|].
      destruct (names sub); discriminate.
    + intros l0 sub0 H3 Hne. rewrite (nth_put _ _ _ _ _ H1) in H3. destruct (Nat.eqb_spec l0 l) as [->|].
      * injection H3 as <-. cbn [sub_topic]. congruence.
      * exact (sh_live _ W _ _ H3 Hne).
    + exact (sh_nd_topic _ W).
    + intros l0 sub0 H3. rewrite (nth_put _ _ _ _ _ H1) in H3. destruct (Nat.eqb_spec l0 l) as [->|].
      * injection H3 as <-. rewrite names_zset. destruct (smem s (names sub)) eqn:M; [exact (sh_nd_subs _ W _ _ H1)|].
        apply NoDup_snoc; [exact (sh_nd_subs _ W _ _ H1)|]. rewrite <- smem_In. congruence.
      * exact (sh_nd_subs _ W _ _ H3).
  - destruct W as [A B C D]. split; assumption.
Qed.

Lemma Own_step b o b' r : Inv1 b -> boutcome b o b' r -> Own b'.
Proof.
  intros (W & O & S) H. destruct H; try exact O.
  - (* join *) split; unfold at_; cbn [b_heap b_by_session].
    + intros s m i l H1 H2. rewrite zget_zset in H1. destruct (s =? _); [injection H1 as <-; discriminate|].
      exact (ow_own _ O _ _ _ _ H1 H2).
    + apply (NoDup_dset _ Zeqb_ok). exact (ow_nd_session _ O).
    + intros s m H1. rewrite zget_zset in H1. destruct (s =? _); [injection H1 as <-; constructor|].
      exact (ow_nd_own _ O _ _ H1).
  - (* leave *) split; rewrite H1.
    + intros s' m i l H5 H6. rewrite zget_zdel in H5 by exact (ow_nd_session _ O). destruct (Z.eqb_spec s' s); [discriminate|].
      destruct (ow_own _ O _ _ _ _ H5 H6) as (sub & A & B & C). rewrite H4, A.
      destruct (in_dec _ _ _); [|eauto]. exists (minus s sub). split; [reflexivity|]. split; [exact B|].
      apply In_names_minus; [exact (sh_nd_subs _ W _ _ A)|auto].
    + apply (NoDup_ddel _ ). exact (ow_nd_session _ O).
    + intros s' m H5. rewrite zget_zdel in H5 by exact (ow_nd_session _ O). destruct (s' =? s); [discriminate|].
      exact (ow_nd_own _ O _ _ H5).
  - (* subscribe new *) split; unfold at_; cbn [b_heap b_by_session].
    + intros s' m' i l H2 H3. rewrite zget_zset in H2. rewrite nth_snoc.
      assert (K : forall l', (exists sub, at_ b l' = Some sub) -> Nat.eqb l' (length (b_heap b)) = false).
      { intros l' [sub A]. apply Nat.eqb_neq. intros ->. unfold at_ in A.
        assert (nth_error (b_heap b) (length (b_heap b)) = None) by (apply nth_error_None; lia). congruence. }
      destruct (Z.eqb_spec s' s) as [->|].
      * injection H2 as <-. rewrite zget_zset in H3. destruct (Z.eqb_spec i id) as [->|].
        -- injection H3 as <-. rewrite Nat.eqb_refl. eexists. split; [reflexivity|]. cbn. auto.
        -- destruct (ow_own _ O _ _ _ _ H H3) as (sub & A & B & C). rewrite K by eauto. eauto.
      * destruct (ow_own _ O _ _ _ _ H2 H3) as (sub & A & B & C). rewrite K by eauto. eauto.
    + apply (NoDup_dset _ Zeqb_ok). exact (ow_nd_session _ O).
    + intros s' m' H2. rewrite zget_zset in H2. destruct (s' =? s); [|exact (ow_nd_own _ O _ _ H2)].
      injection H2 as <-. apply (NoDup_dset _ Zeqb_ok). exact (ow_nd_own _ O _ _ H).
  - (* subscribe old *) split; unfold at_; cbn [b_heap b_by_session].
    + assert (K : forall s' l' sub', at_ b l' = Some sub' -> In s' (names sub') ->
        exists sub'', nth_error (put (b_heap b) l (mkSub (sub_id sub) (sub_topic sub) (zset s s (sub_subscribers sub)))) l' = Some sub''
          /\ sub_id sub'' = sub_id sub' /\ In s' (names sub'')).
      { intros s' l' sub' A C. rewrite (nth_put _ _ _ _ _ H1). destruct (Nat.eqb_spec l' l) as [->|]; [|eauto].
        eexists. split; [reflexivity|]. rewrite H1 in A. injection A as <-. split; [reflexivity|].
        apply In_names_zset. auto. }
      intros s' m' i l' H3 H4. rewrite zget_zset in H3. destruct (Z.eqb_spec s' s) as [->|].
      * injection H3 as <-. rewrite zget_zset in H4. destruct (Z.eqb_spec i (sub_id sub)) as [->|].
        -- injection H4 as <-. rewrite (nth_put _ _ _ _ _ H1), Nat.eqb_refl. eexists. split; [reflexivity|].
           split; [reflexivity|]. apply In_names_zset. auto.
        -- destruct (ow_own _ O _ _ _ _ H H4) as (sub' & A & B & C). subst i. eapply K; eauto.
      * destruct (ow_own _ O _ _ _ _ H3 H4) as (sub' & A & B & C). subst i. eapply K; eauto.
    + apply (NoDup_dset _ Zeqb_ok). exact (ow_nd_session _ O).
    + intros s' m' H3. rewrite zget_zset in H3. destruct (s' =? s); [|exact (ow_nd_own _ O _ _ H3)].
      injection H3 as <-. apply (NoDup_dset _ Zeqb_ok). exact (ow_nd_own _ O _ _ H).
  - (* unsubscribe *) split; rewrite H5.
    + intros s' m' i l' H9 H10. rewrite zget_zset in H9. rewrite H8. destruct (Z.eqb_spec s' s) as [->|].
      * injection H9 as <-. rewrite zget_zdel in H10 by exact (ow_nd_own _ O _ _ H).
        destruct (Z.eqb_spec i (pyint_Z (us_subscription m))); [discriminate|].
        destruct (ow_own _ O _ _ _ _ H H10) as (sub' & A & B & C).
        destruct (Nat.eqb_spec l' l) as [->|]; [|eauto]. rewrite H1 in A. injection A as <-. congruence.
      * destruct (ow_own _ O _ _ _ _ H9 H10) as (sub' & A & B & C).
        destruct (Nat.eqb_spec l' l) as [->|]; [|eauto]. rewrite H1 in A. injection A as <-. eexists. split; [reflexivity|].
        split; [exact B|]. apply In_names_minus; [exact (sh_nd_subs _ W _ _ H1)|auto].
    + apply (NoDup_dset _ Zeqb_ok). exact (ow_nd_session _ O).
    + intros s' m' H9. rewrite zget_zset in H9. destruct (s' =? s); [|exact (ow_nd_own _ O _ _ H9)].
      injection H9 as <-. apply NoDup_ddel. exact (ow_nd_own _ O _ _ H).
  - (* publish *) destruct O as [A B C]. split; assumption.
Qed.

Lemma Sess_step b o b' r : Inv1 b -> boutcome b o b' r -> Sess b'.
Proof.
  intros (W & O & S) H. destruct H; try exact S.
  - split; cbn [b_sessions b_by_session]; [|apply (NoDup_dset _ Zeqb_ok); apply S..].
    intros s. rewrite !zmem_zget, !zget_zset. destruct (s =? _); [reflexivity|]. rewrite <- !zmem_zget. apply S.
  - split; rewrite ?H1, ?H2; [|apply NoDup_ddel; apply S..].
    intros s'. rewrite !zmem_zget, !zget_zdel by apply S. destruct (s' =? s); [reflexivity|]. rewrite <- !zmem_zget. apply S.
  - split; cbn [b_sessions b_by_session]; [|apply S|apply (NoDup_dset _ Zeqb_ok); apply S].
    intros s'. rewrite (se_same _ S), !zmem_zget, zget_zset. destruct (Z.eqb_spec s' s) as [->|]; [rewrite H|]; reflexivity.
  - split; cbn [b_sessions b_by_session]; [|apply S|apply (NoDup_dset _ Zeqb_ok); apply S].
    intros s'. rewrite (se_same _ S), !zmem_zget, zget_zset. destruct (Z.eqb_spec s' s) as [->|]; [rewrite H|]; reflexivity.
  - split; rewrite ?H5, ?H6; [|apply S|apply (NoDup_dset _ Zeqb_ok); apply S].
    intros s'. rewrite (se_same _ S), !zmem_zget, zget_zset. destruct (Z.eqb_spec s' s) as [->|]; [rewrite H|]; reflexivity.
  - destruct S as [A B C]. split; assumption.
Qed.

Lemma Inv1_step b o : Inv1 b -> Inv1 (fst (bstep b o)).
Proof.
  intros I. pose proof (bstep_outcome b o I) as H. repeat split; try eapply Shape_step; eauto; try eapply Own_step; eauto;
    eapply Sess_step; eauto.
Qed.
Lemma Inv1_init : Inv1 broker_init.
Proof.
  split; [|split]; split; unfold at_; cbn; try discriminate; try constructor; try (intros [|?]; discriminate); reflexivity.
Qed.

(** ** Membership follows the history (no bound). *)
Lemma member_step b o b' r h : boutcome b o b' r -> Inv1 b -> (forall s, zmem s (b_by_session b) = member s h) ->
  forall s, zmem s (b_by_session b') = member s ((o, r) :: h).
Proof.
  intros H (W & O & S) M s0. specialize (M s0). unfold member, leaves in *. cbn [since joins is_left].
  destruct H; cbn [b_by_session set_bidgen]; try exact M.
  - rewrite zmem_zget, zget_zset, Z.eqb_sym. destruct (_ =? _); [reflexivity|]. exact M.
  - rewrite H1, zmem_zget, zget_zdel by apply S. rewrite Z.eqb_sym. destruct (_ =? _); [reflexivity|]. exact M.
  - rewrite <- M, !zmem_zget, zget_zset. destruct (Z.eqb_spec s0 s) as [->|]; [rewrite H|]; reflexivity.
  - rewrite <- M, !zmem_zget, zget_zset. destruct (Z.eqb_spec s0 s) as [->|]; [rewrite H|]; reflexivity.
  - rewrite <- M, H5, !zmem_zget, zget_zset. destruct (Z.eqb_spec s0 s) as [->|]; [rewrite H|]; reflexivity.
Qed.

(** ** Invariant, part 2: what the tables say is what the history says, while ids are fresh. *)
Definition lookup (b : broker) t : option (nat * subscription) :=
  match tget t (b_by_topic b) with
  | Some l => match at_ b l with Some sub => Some (l, sub) | None => None end
  | None => None
  end.
Definition subs_of b t : list Z := match lookup b t with Some (_, sub) => names sub | None => [] end.
Definition id_of b s t : option Z :=
  match lookup b t with Some (_, sub) => if smem s (names sub) then Some (sub_id sub) else None | None => None end.

Record Track (b : broker) (h : bhistory) : Prop := {
  tr_gen : b_idgen b = ids_issued h;
  tr_ids : forall l sub, at_ b l = Some sub -> 1 <= sub_id sub <= b_idgen b;
  tr_inj : forall l1 l2 sub1 sub2, at_ b l1 = Some sub1 -> at_ b l2 = Some sub2 -> sub_id sub1 = sub_id sub2 -> l1 = l2;
  tr_all : forall s l sub, at_ b l = Some sub -> In s (names sub) ->
    exists own, zget s (b_by_session b) = Some own /\ zget (sub_id sub) own = Some l;
  tr_subs : forall t, subs_of b t = subscribers t h;
  tr_id : forall s t, id_of b s t = subscribed_as s t h;
  tr_seen : forall i, In i (publications_seen h) \/ In i (subscriptions_seen h) -> 1 <= i <= b_idgen b }.

Lemma lookup_iff b t l sub : Shape b ->
  lookup b t = Some (l, sub) <-> at_ b l = Some sub /\ sub_topic sub = t /\ names sub <> [].
Proof.
  intros W. unfold lookup. split.
  - destruct (tget t (b_by_topic b)) as [l0|] eqn:T; [|discriminate]. destruct (sh_topic _ W _ _ T) as (sub0 & A & B & C).
    rewrite A. intros H. injection H as <- <-. auto.
  - intros (A & B & C). pose proof (sh_live _ W _ _ A C) as L. rewrite B in L. rewrite L, A. reflexivity.
Qed.

Lemma lookup_map b b' f t : Shape b -> Shape b' ->
  (forall l, at_ b' l = option_map (f l) (at_ b l)) ->
  (forall l sub, at_ b l = Some sub -> sub_topic (f l sub) = sub_topic sub) ->
  (forall l sub, at_ b l = Some sub -> names sub = [] -> names (f l sub) = []) ->
  lookup b' t = match lookup b t with
                | Some (l, sub) => if names (f l sub) then None else Some (l, f l sub)
                | None => None
                end.
Proof.
  intros W W' Hf Ht Hn. destruct (lookup b' t) as [[l' sub']|] eqn:L'.
  - apply (lookup_iff _ _ _ _ W') in L'. destruct L' as (A & B & C). rewrite Hf in A.
    destruct (at_ b l') as [sub|] eqn:A0; [|discriminate]. cbn in A. injection A as <-.
    assert (L : lookup b t = Some (l', sub)).
    { apply lookup_iff; [exact W|]. split; [exact A0|]. split; [rewrite <- (Ht _ _ A0); exact B|].
      intros E. apply C. eapply Hn; eauto. }
    rewrite L. destruct (names (f l' sub)); [congruence|reflexivity].
  - destruct (lookup b t) as [[l sub]|] eqn:L; [|reflexivity]. destruct (names (f l sub)) eqn:E; [reflexivity|].
    apply (lookup_iff _ _ _ _ W) in L. destruct L as (A & B & C).
    assert (L2 : lookup b' t = Some (l, f l sub)).
    { apply lookup_iff; [exact W'|]. split; [rewrite Hf, A; reflexivity|]. split; [rewrite (Ht _ _ A); exact B|].
      rewrite E. discriminate. }
    congruence.
Qed.
Lemma subs_of_map b b' f t : Shape b -> Shape b' ->
  (forall l, at_ b' l = option_map (f l) (at_ b l)) ->
  (forall l sub, at_ b l = Some sub -> sub_topic (f l sub) = sub_topic sub) ->
  (forall l sub, at_ b l = Some sub -> names sub = [] -> names (f l sub) = []) ->
  subs_of b' t = match lookup b t with Some (l, sub) => names (f l sub) | None => [] end.
Proof.
  intros. unfold subs_of. rewrite (lookup_map b b' f) by assumption. destruct (lookup b t) as [[l sub]|]; [|reflexivity].
  destruct (names (f l sub)) eqn:E; [reflexivity|]. exact E.
Qed.
Lemma id_of_map b b' f s t : Shape b -> Shape b' ->
  (forall l, at_ b' l = option_map (f l) (at_ b l)) ->
  (forall l sub, at_ b l = Some sub -> sub_topic (f l sub) = sub_topic sub) ->
  (forall l sub, at_ b l = Some sub -> names sub = [] -> names (f l sub) = []) ->
  id_of b' s t = match lookup b t with
                 | Some (l, sub) => if smem s (names (f l sub)) then Some (sub_id (f l sub)) else None
                 | None => None end.
Proof.
  intros. unfold id_of. rewrite (lookup_map b b' f) by assumption. destruct (lookup b t) as [[l sub]|]; [|reflexivity].
  destruct (names (f l sub)) eqn:E; [reflexivity|]. rewrite E. reflexivity.
Qed.

Lemma ids_issued_cons e h : ids_issued h <= ids_issued (e :: h).
Proof. cbn [ids_issued]. destruct (takes_id e h); lia. Qed.
Lemma ids_issued_nonneg h : 0 <= ids_issued h.
Proof. induction h as [|e h IH]; [reflexivity|]. pose proof (ids_issued_cons e h). lia. Qed.

Lemma next_id_fresh g : g < ID_MAX -> next_id g = (g + 1, g + 1).
Proof. intros H. unfold next_id. destruct (Z.eqb_spec g ID_MAX); [lia|]. reflexivity. Qed.

Lemma smem_names_minus x s sub : NoDup (names sub) -> smem x (names (minus s sub)) = negb (x =? s) && smem x (names sub).
Proof.
  intros H. apply eq_true_iff_eq. rewrite andb_true_iff, !smem_In, In_names_minus by exact H.
  destruct (Z.eqb_spec x s); cbn; intuition congruence.
Qed.
Lemma names_minus s sub : NoDup (names sub) -> names (minus s sub) = without s (names sub).
Proof. intros H. apply names_zdel. exact H. Qed.

(** A call that changes no table. *)
Lemma Track_quiet b o r h : Track b h -> subscribes (o, r) = None -> unsubscribes (o, r) = None -> is_left (o, r) = None ->
  (forall p, r <> OPub p) -> Track b ((o, r) :: h).
Proof.
  intros T Hs Hu Hl Hp.
  assert (Ht : takes_id (o, r) h = false).
  { unfold takes_id. rewrite Hs. destruct o; try reflexivity. destruct r; try reflexivity. destruct (Hp p); reflexivity. }
  destruct T as [A B C D E F G]. split; try assumption.
  - cbn [ids_issued]. rewrite Ht. lia.
  - intros t. cbn [subscribers]. rewrite Hs, Hu, Hl. apply E.
  - intros s t. cbn [subscribed_as]. unfold leaves. rewrite Hs, Hu, Hl. apply F.
  - intros i Hi. apply G. unfold publications_seen, subscriptions_seen in *. cbn [flat_map] in Hi. rewrite Hs in Hi.
    assert (Q : seen_publication (o, r) = []) by (unfold seen_publication; destruct r; try reflexivity; destruct (Hp p); reflexivity).
    rewrite Q in Hi. exact Hi.
Qed.

Lemma Track_step b o b' r h : Inv1 b -> boutcome b o b' r -> Track b h -> ids_issued ((o, r) :: h) <= ID_MAX ->
  Track b' ((o, r) :: h).
Proof.
  intros (W & O & S) Hout T Hmax.
  assert (W' : Shape b') by (eapply Shape_step; [split; [|split]|]; eauto).
  destruct Hout.
  - (* join *) destruct T as [A B C D E F G]. split; try assumption.
    + cbn. lia.
    + intros s l sub A1 A2. destruct (D s l sub A1 A2) as (own & G1 & G2). exists own. split; [|exact G2].
      cbn [b_by_session]. rewrite zget_zset. destruct (Z.eqb_spec s (pyint_Z (det_session d))) as [->|]; [congruence|exact G1].
  - apply Track_quiet; auto; discriminate.
  - (* leave *)
    pose (f := fun (l : nat) sub => if in_dec Nat.eq_dec l (map snd own) then minus s sub else sub).
    assert (Hf : forall l, at_ b' l = option_map (f l) (at_ b l)).
    { intros l. rewrite H4. unfold f. destruct (in_dec _ _ _); [reflexivity|]. destruct (at_ b l); reflexivity. }
    assert (Hname : forall l sub, at_ b l = Some sub -> names (f l sub) = without s (names sub)).
    { intros l sub A. unfold f. destruct (in_dec _ _ _) as [Hin|Hnin].
      - apply names_minus. exact (sh_nd_subs _ W _ _ A).
      - symmetry. apply without_id. intros Hs. apply Hnin. destruct (tr_all _ _ T _ _ _ A Hs) as (own' & G1 & G2).
        rewrite H in G1. injection G1 as <-. apply (dget_In _ Zeqb_ok) in G2. apply in_map_iff. exists (sub_id sub, l). auto. }
    assert (Hid : forall l sub, sub_id (f l sub) = sub_id sub) by (intros; unfold f; destruct (in_dec _ _ _); reflexivity).
    assert (Htop : forall l sub, at_ b l = Some sub -> sub_topic (f l sub) = sub_topic sub)
      by (intros; unfold f; destruct (in_dec _ _ _); reflexivity).
    assert (Hnil : forall l sub, at_ b l = Some sub -> names sub = [] -> names (f l sub) = [])
      by (intros l sub A E; rewrite (Hname _ _ A), E; reflexivity).
    assert (Hat : forall l sub', at_ b' l = Some sub' -> exists sub, at_ b l = Some sub /\ sub' = f l sub).
    { intros l sub' A. rewrite Hf in A. destruct (at_ b l) as [sub|]; [|discriminate]. injection A as <-. eauto. }
    split.
    + cbn. rewrite H3, (tr_gen _ _ T). lia.
    + intros l sub' A. destruct (Hat _ _ A) as (sub & A0 & ->). rewrite Hid, H3. exact (tr_ids _ _ T _ _ A0).
    + intros l1 l2 s1 s2 A1 A2 E. destruct (Hat _ _ A1) as (x1 & B1 & ->). destruct (Hat _ _ A2) as (x2 & B2 & ->).
      rewrite !Hid in E. exact (tr_inj _ _ T _ _ _ _ B1 B2 E).
    + intros s' l sub' A Hin. destruct (Hat _ _ A) as (sub & A0 & ->). rewrite (Hname _ _ A0) in Hin. apply In_without in Hin.
      destruct Hin as [Hin Hne]. destruct (tr_all _ _ T _ _ _ A0 Hin) as (own' & G1 & G2). exists own'. rewrite Hid. split; [|exact G2].
      rewrite H1, zget_zdel by apply S. destruct (Z.eqb_spec s' s); [congruence|exact G1].
    + intros t. rewrite (subs_of_map b b' f) by assumption. cbn [subscribers subscribes unsubscribes is_left].
      rewrite <- (tr_subs _ _ T t). unfold subs_of. destruct (lookup b t) as [[l sub]|] eqn:L; [|reflexivity].
      apply (lookup_iff _ _ _ _ W) in L. apply Hname. tauto.
    + intros s' t. rewrite (id_of_map b b' f) by assumption. cbn [subscribed_as subscribes unsubscribes]. unfold leaves. cbn [is_left].
      rewrite <- (tr_id _ _ T). unfold id_of. destruct (lookup b t) as [[l sub]|] eqn:L; [|destruct (s =? s'); reflexivity].
      apply (lookup_iff _ _ _ _ W) in L. rewrite (Hname l sub) by tauto. rewrite Hid.
      destruct (Z.eqb_spec s s') as [->|Hne].
      * destruct (smem s' (without s' (names sub))) eqn:M; [|reflexivity]. apply smem_In, In_without in M. tauto.
      * destruct (smem s' (names sub)) eqn:M; destruct (smem s' (without s (names sub))) eqn:M'; try reflexivity; exfalso.
        -- assert (In s' (without s (names sub))) by (apply In_without; split; [apply smem_In; exact M|congruence]).
           apply smem_In in H5. congruence.
        -- apply smem_In, In_without in M'. destruct M' as [M' _]. apply smem_In in M'. congruence.
    + intros i Hi. rewrite H3. exact (tr_seen _ _ T i Hi).
  - apply Track_quiet; auto; discriminate.
  - apply Track_quiet; auto; discriminate.
  - (* subscribe, new topic *)
    assert (L0 : lookup b (su_topic m) = None) by (unfold lookup; rewrite H0; reflexivity).
    assert (Hno : subscribers (su_topic m) h = []) by (rewrite <- (tr_subs _ _ T); unfold subs_of; rewrite L0; reflexivity).
    assert (Htk : takes_id (BMsg s (Subscribe m), ORouted (mkRouted (Subscribed (mkSubscribed (su_request m) (PyInt id))) s)) h = true)
      by (cbn; rewrite Hno; reflexivity).
    cbn [ids_issued] in Hmax. rewrite Htk in Hmax.
    pose proof (tr_gen _ _ T) as Hg. rewrite next_id_fresh in H1 by lia. injection H1 as <- <-.
    assert (Hlen : forall l sub, at_ b l = Some sub -> Nat.eqb l (length (b_heap b)) = false).
    { intros l sub A. apply Nat.eqb_neq. intros ->. unfold at_ in A.
      assert (nth_error (b_heap b) (length (b_heap b)) = None) by (apply nth_error_None; lia). congruence. }
    set (b' := mkBroker _ _ _ _ _) in *.
    assert (Hat : forall l, at_ b' l = if Nat.eqb l (length (b_heap b)) then Some (mkSub (b_idgen b + 1) (su_topic m) [(s, s)]) else at_ b l)
      by (intros l; apply nth_snoc).
    assert (Hlook : forall t, lookup b' t = if String.eqb t (su_topic m)
              then Some (length (b_heap b), mkSub (b_idgen b + 1) (su_topic m) [(s, s)]) else lookup b t).
    { intros t. unfold lookup. cbn [b' b_by_topic]. rewrite tget_tset. destruct (String.eqb_spec t (su_topic m)) as [->|Hn].
      - rewrite Hat, Nat.eqb_refl. reflexivity.
      - destruct (tget t (b_by_topic b)) as [l|] eqn:Q; [|reflexivity]. destruct (sh_topic _ W _ _ Q) as (sub & A & _).
        rewrite Hat, (Hlen _ _ A). reflexivity. }
    split.
    + cbn [ids_issued]. rewrite Htk. cbn. lia.
    + intros l sub A. rewrite Hat in A. cbn [b' b_idgen]. pose proof (ids_issued_nonneg h). destruct (Nat.eqb _ _).
      * injection A as <-. cbn. lia.
      * pose proof (tr_ids _ _ T _ _ A). lia.
    + intros l1 l2 s1 s2 A1 A2 E. rewrite Hat in A1, A2.
      destruct (Nat.eqb_spec l1 (length (b_heap b))) as [->|]; destruct (Nat.eqb_spec l2 (length (b_heap b))) as [->|]; auto.
      * injection A1 as <-. pose proof (tr_ids _ _ T _ _ A2). cbn in E. lia.
      * injection A2 as <-. pose proof (tr_ids _ _ T _ _ A1). cbn in E. lia.
      * exact (tr_inj _ _ T _ _ _ _ A1 A2 E).
    + intros s' l sub A Hin. rewrite Hat in A. cbn [b' b_by_session]. rewrite zget_zset.
      destruct (Nat.eqb_spec l (length (b_heap b))) as [->|].
      * injection A as <-. destruct Hin as [<-|[]]. cbn [fst]. rewrite Z.eqb_refl. eexists. split; [reflexivity|].
        cbn [sub_id]. rewrite zget_zset, Z.eqb_refl. reflexivity.
      * destruct (tr_all _ _ T _ _ _ A Hin) as (own' & G1 & G2). destruct (Z.eqb_spec s' s) as [->|]; [|eauto].
        rewrite H in G1. injection G1 as <-. eexists. split; [reflexivity|]. rewrite zget_zset.
        pose proof (tr_ids _ _ T _ _ A). destruct (Z.eqb_spec (sub_id sub) (b_idgen b + 1)); [lia|exact G2].
    + intros t. unfold subs_of. rewrite Hlook. cbn [subscribers subscribes]. rewrite <- (tr_subs _ _ T t).
      rewrite String.eqb_sym. destruct (String.eqb_spec (su_topic m) t) as [<-|]; cbn [andb]; [|reflexivity].
      unfold subs_of. rewrite L0. reflexivity.
    + intros s' t. unfold id_of. rewrite Hlook. cbn [subscribed_as subscribes]. rewrite <- (tr_id _ _ T). unfold id_of.
      cbn [pyint_Z sd_subscription].
      rewrite String.eqb_sym. destruct (String.eqb_spec (su_topic m) t) as [<-|]; [|rewrite andb_false_r; reflexivity].
      rewrite L0, andb_true_r. unfold names. cbn. rewrite orb_false_r, Z.eqb_sym. reflexivity.
    + intros i Hi. cbn [b' b_idgen]. unfold publications_seen, subscriptions_seen in *. cbn in Hi.
      pose proof (ids_issued_nonneg h). destruct Hi as [Hi|[<-|Hi]]; [|lia|].
      * pose proof (tr_seen _ _ T i (or_introl Hi)). lia.
      * pose proof (tr_seen _ _ T i (or_intror Hi)). lia.
  - (* subscribe, existing topic *)
    assert (L0 : lookup b (su_topic m) = Some (l, sub)) by (unfold lookup; rewrite H0, H1; reflexivity).
    assert (Hne : names sub <> []) by (apply (lookup_iff _ _ _ _ W) in L0; tauto).
    assert (Hno : subscribers (su_topic m) h <> []) by (rewrite <- (tr_subs _ _ T); unfold subs_of; rewrite L0; exact Hne).
    assert (Htk : takes_id (BMsg s (Subscribe m), ORouted (mkRouted (Subscribed (mkSubscribed (su_request m) (PyInt (sub_id sub)))) s)) h = false)
      by (cbn; destruct (subscribers (su_topic m) h); congruence).
    set (new := mkSub (sub_id sub) (sub_topic sub) (zset s s (sub_subscribers sub))) in *.
    set (b' := mkBroker _ _ _ _ _) in *.
    assert (Hat : forall l', at_ b' l' = if Nat.eqb l' l then Some new else at_ b l') by (intros l'; apply (nth_put _ _ _ _ sub); exact H1).
    assert (Hlook : forall t, lookup b' t = if String.eqb t (su_topic m) then Some (l, new) else lookup b t).
    { intros t. unfold lookup. cbn [b' b_by_topic]. destruct (String.eqb_spec t (su_topic m)) as [->|Hn].
      - rewrite H0, Hat, Nat.eqb_refl. reflexivity.
      - destruct (tget t (b_by_topic b)) as [l0|] eqn:Q; [|reflexivity]. destruct (sh_topic _ W _ _ Q) as (sub0 & A & B & _).
        rewrite Hat. destruct (Nat.eqb_spec l0 l) as [->|]; [|reflexivity]. rewrite H1 in A. congruence. }
    assert (Hback : forall l' sub', at_ b' l' = Some sub' -> exists sub0, at_ b l' = Some sub0 /\ sub_id sub' = sub_id sub0).
    { intros l' sub' A. rewrite Hat in A. destruct (Nat.eqb_spec l' l) as [->|]; [|eauto]. injection A as <-. exists sub. auto. }
    split.
    + cbn [ids_issued]. rewrite Htk. cbn. rewrite (tr_gen _ _ T). lia.
    + intros l' sub' A. destruct (Hback _ _ A) as (sub0 & A0 & ->). exact (tr_ids _ _ T _ _ A0).
    + intros l1 l2 s1 s2 A1 A2 E. destruct (Hback _ _ A1) as (x1 & B1 & E1). destruct (Hback _ _ A2) as (x2 & B2 & E2).
      rewrite E1, E2 in E. exact (tr_inj _ _ T _ _ _ _ B1 B2 E).
    + intros s' l' sub' A Hin. rewrite Hat in A. cbn [b' b_by_session]. rewrite zget_zset.
      destruct (Nat.eqb_spec l' l) as [->|].
      * injection A as <-. unfold new in Hin. apply In_names_zset in Hin. destruct (Z.eqb_spec s' s) as [->|Hd].
        -- eexists. split; [reflexivity|]. cbn [sub_id new]. rewrite zget_zset, Z.eqb_refl. reflexivity.
        -- destruct Hin as [|Hin]; [congruence|]. exact (tr_all _ _ T _ _ _ H1 Hin).
      * destruct (tr_all _ _ T _ _ _ A Hin) as (own' & G1 & G2). destruct (Z.eqb_spec s' s) as [->|]; [|eauto].
        rewrite H in G1. injection G1 as <-. eexists. split; [reflexivity|]. rewrite zget_zset.
        destruct (Z.eqb_spec (sub_id sub') (sub_id sub)) as [E|]; [|exact G2].
        pose proof (tr_inj _ _ T _ _ _ _ A H1 E). congruence.
    + intros t. unfold subs_of. rewrite Hlook. cbn [subscribers subscribes]. rewrite <- (tr_subs _ _ T t).
      rewrite String.eqb_sym. destruct (String.eqb_spec (su_topic m) t) as [<-|]; cbn [andb]; [|reflexivity].
      unfold subs_of. rewrite L0. unfold new. rewrite names_zset. unfold smem. destruct (existsb _ _); reflexivity.
    + intros s' t. unfold id_of. rewrite Hlook. cbn [subscribed_as subscribes]. rewrite <- (tr_id _ _ T). unfold id_of.
      cbn [pyint_Z sd_subscription].
      rewrite String.eqb_sym. destruct (String.eqb_spec (su_topic m) t) as [<-|]; [|rewrite andb_false_r; reflexivity].
      rewrite L0, andb_true_r. cbn [new sub_id]. destruct (Z.eqb_spec s s') as [->|Hd].
      * destruct (smem s' (names new)) eqn:M; [reflexivity|]. exfalso.
        assert (In s' (names new)) by (apply In_names_zset; auto). apply smem_In in H3. congruence.
      * destruct (smem s' (names new)) eqn:M; destruct (smem s' (names sub)) eqn:M'; try reflexivity; exfalso.
        -- apply smem_In, In_names_zset in M. destruct M as [|M]; [congruence|]. apply smem_In in M. congruence.
        -- apply smem_In in M'. assert (In s' (names new)) by (apply In_names_zset; auto). apply smem_In in H3. congruence.
    + intros i Hi. cbn [b' b_idgen]. unfold publications_seen, subscriptions_seen in *. cbn in Hi.
      destruct Hi as [Hi|[<-|Hi]].
      * exact (tr_seen _ _ T i (or_introl Hi)).
      * exact (tr_ids _ _ T _ _ H1).
      * exact (tr_seen _ _ T i (or_intror Hi)).
  - apply Track_quiet; auto; discriminate.
  - (* unsubscribe *)
    pose (f := fun (l' : nat) sub' => if Nat.eqb l' l then minus s sub' else sub').
    assert (Hf : forall l', at_ b' l' = option_map (f l') (at_ b l')).
    { intros l'. rewrite H8. unfold f. destruct (Nat.eqb_spec l' l) as [->|]; [rewrite H1; reflexivity|]. destruct (at_ b l'); reflexivity. }
    assert (Hid : forall l sub, sub_id (f l sub) = sub_id sub) by (intros; unfold f; destruct (Nat.eqb _ _); reflexivity).
    assert (Htop : forall l sub, at_ b l = Some sub -> sub_topic (f l sub) = sub_topic sub)
      by (intros; unfold f; destruct (Nat.eqb _ _); reflexivity).
    assert (Hname : forall l' sub', at_ b l' = Some sub' -> names (f l' sub') = if Nat.eqb l' l then without s (names sub') else names sub').
    { intros l' sub' A. unfold f. destruct (Nat.eqb _ _); [|reflexivity]. apply names_minus. exact (sh_nd_subs _ W _ _ A). }
    assert (Hnil : forall l sub, at_ b l = Some sub -> names sub = [] -> names (f l sub) = []).
    { intros l' sub' A E. rewrite (Hname _ _ A), E. destruct (Nat.eqb _ _); reflexivity. }
    assert (Hat : forall l sub', at_ b' l = Some sub' -> exists sub, at_ b l = Some sub /\ sub' = f l sub).
    { intros l' sub' A. rewrite Hf in A. destruct (at_ b l') as [x|]; [|discriminate]. injection A as <-. eauto. }
    assert (Hmine : forall t, subscribed_as s t h = Some (pyint_Z (us_subscription m)) <-> sub_topic sub = t).
    { intros t. rewrite <- (tr_id _ _ T). unfold id_of. split.
      - destruct (lookup b t) as [[l' sub']|] eqn:L; [|discriminate]. destruct (smem s (names sub')); [|discriminate].
        intros E. injection E as E. apply (lookup_iff _ _ _ _ W) in L. destruct L as (A & B & _).
        rewrite <- H2 in E. pose proof (tr_inj _ _ T _ _ _ _ A H1 E). subst l'. congruence.
      - intros <-. assert (L : lookup b (sub_topic sub) = Some (l, sub)).
        { apply lookup_iff; [exact W|]. split; [exact H1|]. split; [reflexivity|]. intros E. rewrite E in H3. exact H3. }
        rewrite L. apply smem_In in H3. rewrite H3, H2. reflexivity. }
    split.
    + cbn. rewrite H7, (tr_gen _ _ T). lia.
    + intros l' sub' A. destruct (Hat _ _ A) as (x & A0 & ->). rewrite Hid, H7. exact (tr_ids _ _ T _ _ A0).
    + intros l1 l2 s1 s2 A1 A2 E. destruct (Hat _ _ A1) as (x1 & B1 & ->). destruct (Hat _ _ A2) as (x2 & B2 & ->).
      rewrite !Hid in E. exact (tr_inj _ _ T _ _ _ _ B1 B2 E).
    + intros s' l' sub' A Hin. destruct (Hat _ _ A) as (x & A0 & ->). rewrite (Hname _ _ A0) in Hin. rewrite Hid, H5, zget_zset.
      assert (Hin' : In s' (names x) /\ (l' = l -> s' <> s)).
      { destruct (Nat.eqb_spec l' l); [apply In_without in Hin; tauto|tauto]. }
      destruct Hin' as [Hin' Hd]. destruct (tr_all _ _ T _ _ _ A0 Hin') as (own' & G1 & G2).
      destruct (Z.eqb_spec s' s) as [->|]; [|eauto]. rewrite H in G1. injection G1 as <-. eexists. split; [reflexivity|].
      rewrite zget_zdel by exact (ow_nd_own _ O _ _ H). destruct (Z.eqb_spec (sub_id x) (pyint_Z (us_subscription m))) as [E|]; [|exact G2].
      rewrite <- H2 in E. pose proof (tr_inj _ _ T _ _ _ _ A0 H1 E). tauto.
    + intros t. rewrite (subs_of_map b b' f) by assumption. cbn [subscribers subscribes unsubscribes].
      rewrite <- (tr_subs _ _ T t). unfold subs_of.
      assert (Hsel : forall (X : Type) (x y : X), match subscribed_as s t h with
                Some j => if pyint_Z (us_subscription m) =? j then x else y | None => y end
                = if String.eqb (sub_topic sub) t then x else y).
      { intros X x y. destruct (String.eqb_spec (sub_topic sub) t) as [E|E].
        - apply Hmine in E. rewrite E, Z.eqb_refl. reflexivity.
        - destruct (subscribed_as s t h) as [j|] eqn:Q; [|reflexivity].
          destruct (Z.eqb_spec (pyint_Z (us_subscription m)) j) as [<-|]; [|reflexivity]. apply Hmine in Q. congruence. }
      rewrite Hsel. destruct (lookup b t) as [[l' sub']|] eqn:L; [|destruct (String.eqb _ _); reflexivity].
      apply (lookup_iff _ _ _ _ W) in L. destruct L as (A & B & C). rewrite (Hname _ _ A).
      destruct (Nat.eqb_spec l' l) as [->|Hd]; destruct (String.eqb_spec (sub_topic sub) t) as [E|E]; try reflexivity.
      * congruence.
      * destruct Hd. assert (Q1 := sh_live _ W _ _ A C).
        assert (Q2 : tget (sub_topic sub) (b_by_topic b) = Some l)
          by (apply (sh_live _ W _ _ H1); intros Q; rewrite Q in H3; exact H3). congruence.
    + intros s' t. rewrite (id_of_map b b' f) by assumption. cbn [subscribed_as subscribes unsubscribes].
      rewrite Z.eqb_sym. destruct (Z.eqb_spec s' s) as [->|Hd].
      * assert (Hsel : match subscribed_as s t h with Some j => if pyint_Z (us_subscription m) =? j then None else subscribed_as s t h
                        | None => None end = if String.eqb (sub_topic sub) t then None else subscribed_as s t h).
        { destruct (String.eqb_spec (sub_topic sub) t) as [E|E].
          - apply Hmine in E. rewrite E, Z.eqb_refl. reflexivity.
          - destruct (subscribed_as s t h) as [j|] eqn:Q; [|reflexivity].
            destruct (Z.eqb_spec (pyint_Z (us_subscription m)) j) as [<-|]; [|reflexivity]. apply Hmine in Q. congruence. }
        rewrite Hsel, <- (tr_id _ _ T). unfold id_of.
        destruct (lookup b t) as [[l' sub']|] eqn:L; [|destruct (String.eqb _ _); reflexivity].
        apply (lookup_iff _ _ _ _ W) in L. destruct L as (A & B & C). rewrite (Hname _ _ A), Hid.
        destruct (Nat.eqb_spec l' l) as [->|Hd]; destruct (String.eqb_spec (sub_topic sub) t) as [E|E]; try reflexivity.
        -- destruct (smem s (without s (names sub'))) eqn:M; [|reflexivity]. apply smem_In, In_without in M. tauto.
        -- congruence.
        -- destruct Hd. assert (Q1 := sh_live _ W _ _ A C).
           assert (Q2 : tget (sub_topic sub) (b_by_topic b) = Some l)
             by (apply (sh_live _ W _ _ H1); intros Q; rewrite Q in H3; exact H3). congruence.
      * rewrite <- (tr_id _ _ T). unfold id_of. destruct (lookup b t) as [[l' sub']|] eqn:L; [|reflexivity].
        apply (lookup_iff _ _ _ _ W) in L. destruct L as (A & B & C). rewrite (Hname _ _ A), Hid.
        destruct (Nat.eqb l' l); [|reflexivity].
        assert (Q : smem s' (without s (names sub')) = smem s' (names sub')).
        { apply eq_true_iff_eq. rewrite !smem_In, In_without. tauto. }
        rewrite Q. reflexivity.
    + intros i Hi. rewrite H7. exact (tr_seen _ _ T i Hi).
  - apply Track_quiet; try discriminate; auto; destruct m; try reflexivity.
  - apply Track_quiet; auto; discriminate.
  - (* publish *)
    cbn [ids_issued takes_id] in Hmax. pose proof (tr_gen _ _ T) as Hg. rewrite next_id_fresh in H0 by lia. injection H0 as <- <-.
    pose proof (ids_issued_nonneg h) as H0.
    split.
    + cbn [ids_issued takes_id set_bidgen b_idgen]. lia.
    + intros l sub A. pose proof (tr_ids _ _ T l sub A). cbn [set_bidgen b_idgen]. lia.
    + exact (tr_inj _ _ T).
    + exact (tr_all _ _ T).
    + exact (tr_subs _ _ T).
    + exact (tr_id _ _ T).
    + intros i Hi. cbn [set_bidgen b_idgen].
      assert (K : i = b_idgen b + 1 \/ In i (publications_seen h) \/ In i (subscriptions_seen h)).
      { destruct Hi as [Hi|Hi]; [|auto]. unfold publications_seen in Hi. cbn [flat_map] in Hi. apply in_app_iff in Hi.
        destruct Hi as [Hi|Hi]; [|auto]. left. cbn [seen_publication pu_event pu_ack] in Hi. apply in_app_iff in Hi.
        destruct Hi as [Hi|Hi].
        - destruct (tget (pb_topic m) (b_by_topic b)) as [l|]; [|destruct Hi]. destruct (at_ b l); [|destruct Hi].
          cbn in Hi. destruct Hi as [<-|[]]. reflexivity.
        - destruct (truthy _); [|destruct Hi]. cbn in Hi. destruct Hi as [<-|[]]. reflexivity. }
      destruct K as [->|K]; [lia|]. pose proof (tr_seen _ _ T i K). lia.
Qed.

(** ** All executions. *)
Definition BInv (b : broker) (h : bhistory) : Prop :=
  Inv1 b /\ (forall s, zmem s (b_by_session b) = member s h) /\ (ids_issued h <= ID_MAX -> Track b h).

Lemma BInv_step b h o : BInv b h -> BInv (fst (bstep b o)) ((o, snd (bstep b o)) :: h).
Proof.
  intros (I & M & T). pose proof (bstep_outcome b o I) as Hout. split; [apply Inv1_step; exact I|]. split.
  - eapply member_step; eauto.
  - intros Hmax. eapply Track_step; eauto. apply T. eapply Z.le_trans; [apply ids_issued_cons|exact Hmax].
Qed.
Lemma Track_init : Track broker_init [].
Proof.
  split; unfold at_; cbn; try reflexivity; try (intros [|?]; discriminate); try (intros s [|?]; discriminate).
  intros i Hi. destruct Hi as [Hi|Hi]; destruct Hi.
Qed.
Lemma brun_inv_from ops : forall b h, BInv b h ->
  let bh := fold_left bstep_h ops (b, h) in BInv (fst bh) (snd bh).
Proof.
  induction ops as [|o ops IH]; intros b h I; [exact I|]. cbn [fold_left]. cbn zeta in *. unfold bstep_h at 2 4. cbn [fst snd].
  pose proof (BInv_step b h o I) as I'. destruct (bstep b o) as [b' r]. apply IH. exact I'.
Qed.
Lemma brun_inv ops : BInv (fst (brun ops)) (snd (brun ops)).
Proof.
  apply brun_inv_from. split; [apply Inv1_init|]. split; [reflexivity|]. intros _. exact Track_init.
Qed.
Lemma brun_snoc ops o : brun (ops ++ [o]) =
  (fst (bstep (fst (brun ops)) o), (o, snd (bstep (fst (brun ops)) o)) :: snd (brun ops)).
Proof.
  unfold brun. rewrite fold_left_app. cbn [fold_left]. unfold bstep_h at 1. destruct (bstep _ o). reflexivity.
Qed.

(** ** Spec sanity *)
Lemma in_subscribers s t h : In s (subscribers t h) <-> exists i, subscribed_as s t h = Some i.
Proof.
  induction h as [|e h IH]; [cbn; split; [intros []|intros [? [=]]]|].
  cbn [subscribers subscribed_as]. unfold leaves. destruct (subscribes e) as [[[s' t'] i]|] eqn:E1.
  - destruct (String.eqb_spec t' t) as [->|]; [|rewrite andb_false_r; exact IH]. cbn [andb]. rewrite andb_true_r.
    destruct (existsb (Z.eqb s') (subscribers t h)) eqn:M; cbn [negb].
    + destruct (Z.eqb_spec s' s) as [->|]; [|exact IH]. split; [eauto|]. intros _. apply smem_In. exact M.
    + rewrite in_app_iff. cbn. destruct (Z.eqb_spec s' s) as [->|Hn]; [split; eauto|]. rewrite IH. split; [|auto].
      intros [|[|[]]]; congruence.
  - destruct (unsubscribes e) as [[s' i]|] eqn:E2.
    + destruct (Z.eqb_spec s' s) as [->|Hn].
      * destruct (subscribed_as s t h) as [j|] eqn:A; [|exact IH].
        destruct (i =? j); [|exact IH]. rewrite In_without. split; [tauto|]. intros [? [=]].
      * destruct (subscribed_as s' t h) as [j|] eqn:A; [|exact IH]. destruct (i =? j); [|exact IH].
        rewrite In_without, IH. split; [tauto|]. intros H. split; [exact H|congruence].
    + destruct (is_left e) as [s'|] eqn:E3; [|exact IH]. rewrite In_without.
      destruct (Z.eqb_spec s' s) as [->|]; [split; [tauto|intros [? [=]]]|]. rewrite IH. split; [tauto|]. intros H. split; [exact H|congruence].
Qed.

Definition touches s t i (e : bentry) : Prop :=
  (exists j, subscribes e = Some (s, t, j)) \/ unsubscribes e = Some (s, i) \/ leaves s e = true.
Lemma subscribed_as_spec s t i h : subscribed_as s t h = Some i <->
  exists newer e older, h = newer ++ e :: older /\ subscribes e = Some (s, t, i) /\
    forall x, In x newer -> ~ touches s t i x.
Proof.
  induction h as [|e h IH].
  { cbn. split; [discriminate|]. intros (n & e & o & H & _). destruct n; discriminate. }
  assert (Skip : (forall newer e' older, h = newer ++ e' :: older -> subscribes e' = Some (s, t, i) ->
                   (forall x, In x newer -> ~ touches s t i x) -> ~ touches s t i e ->
                   exists newer e' older, e :: h = newer ++ e' :: older /\ subscribes e' = Some (s, t, i) /\
                     forall x, In x newer -> ~ touches s t i x)).
  { intros n e' o -> He Hn Hs. exists (e :: n), e', o. repeat split; auto. intros x [<-|Hx]; auto. }
  assert (Back : ~ (subscribes e = Some (s, t, i)) ->
     (exists newer e' older, e :: h = newer ++ e' :: older /\ subscribes e' = Some (s, t, i) /\
                     forall x, In x newer -> ~ touches s t i x) ->
     ~ touches s t i e /\ subscribed_as s t h = Some i).
  { intros Hne ([|x n] & e' & o & Q & He & Hn); cbn in Q; injection Q as <- ->; [congruence|].
    split; [apply Hn; left; reflexivity|]. apply IH. exists n, e', o. repeat split; auto.
    intros y Hy. apply Hn. right. exact Hy. }
  cbn [subscribed_as]. destruct (subscribes e) as [[[s' t'] j]|] eqn:E1.
  - assert (NT : (s', t') <> (s, t) -> ~ touches s t i e).
    { intros Hd [[k K]|[K|K]].
      - congruence.
      - destruct e as [[| |? []|] []]; discriminate.
      - destruct e as [[] []]; discriminate. }
    destruct (Z.eqb_spec s' s) as [->|Hn]; cbn [andb]; [destruct (String.eqb_spec t' t) as [->|Hn]|].
    + split.
      * intros H. injection H as ->. exists [], e, h. repeat split; auto.
      * intros H. destruct (Z.eq_dec j i) as [->|Hj]; [reflexivity|]. destruct Back as [B _]; [congruence|exact H|].
        destruct B. left. eauto.
    + split; [intros H; apply IH in H; destruct H as (n & e' & o & A & B & C); eapply Skip; eauto|].
      * apply NT. congruence.
      * intros H. apply Back in H; [tauto|congruence].
    + split; [intros H; apply IH in H; destruct H as (n & e' & o & A & B & C); eapply Skip; eauto|].
      * apply NT. congruence.
      * intros H. apply Back in H; [tauto|congruence].
  - assert (NB : ~ (@None (Z * string * Z) = Some (s, t, i))) by discriminate.
    assert (Pass : ~ touches s t i e -> (subscribed_as s t h = Some i <-> exists newer e' older, e :: h = newer ++ e' :: older /\
                     subscribes e' = Some (s, t, i) /\ forall x, In x newer -> ~ touches s t i x)).
    { intros Ht. split; [intros H; apply IH in H; destruct H as (n & e' & o & A & B & C); eapply Skip; eauto|].
      intros H. apply Back in H; tauto. }
    assert (Stop : touches s t i e -> forall x, x <> Some i -> (x = Some i <-> exists newer e' older, e :: h = newer ++ e' :: older /\
                     subscribes e' = Some (s, t, i) /\ forall x, In x newer -> ~ touches s t i x)).
    { intros Ht x Hx. split; [tauto|]. intros H. apply Back in H; tauto. }
    destruct (unsubscribes e) as [[s' j]|] eqn:E2.
    + assert (Hlv : forall s0, leaves s0 e = false).
      { intros s0. unfold leaves, unsubscribes in *. destruct e as [[] []]; cbn in *; try discriminate; reflexivity. }
      destruct (Z.eqb_spec s' s) as [->|Hn].
      * destruct (Z.eq_dec j i) as [->|Hj].
        -- apply Stop; [right; left; exact E2|]. destruct (subscribed_as s t h) as [k|]; [|discriminate].
           destruct (Z.eqb_spec i k) as [->|]; congruence.
        -- assert (Ht : ~ touches s t i e) by (intros [[k K]|[K|K]]; [congruence|congruence|rewrite Hlv in K; discriminate]).
           rewrite <- (Pass Ht). destruct (subscribed_as s t h) as [k|]; [|tauto].
           destruct (Z.eqb_spec j k) as [->|]; [|tauto]. split; [discriminate|congruence].
      * apply Pass. intros [[k K]|[K|K]]; [congruence|congruence|rewrite Hlv in K; discriminate].
    + destruct (leaves s e) eqn:L.
      * apply Stop; [right; right; exact L|discriminate].
      * apply Pass. intros [[k K]|[K|K]]; congruence.
Qed.
