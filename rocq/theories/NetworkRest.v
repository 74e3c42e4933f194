(** * NetworkRest: a network whose clients are silent comes to rest.  Proofs only. *)
From Coq Require Import List ZArith Bool Lia.
From Verif Require Import PyBase DictFacts Messages Session Joiner Broker Dealer BrokerFacts DealerFacts Network SpecNetwork NetworkFacts NetworkInv.
From Verif Require Import NetworkOrigin NetworkOnce SpecOrder NetworkOrder SpecRest.
Import ListNotations.
Local Open Scope Z_scope.
Local Open Scope list_scope.

Lemma nrun_more acts a : fst (nrun (acts ++ [a])) = fst (nstep (fst (nrun acts)) a).
Proof. rewrite nrun_snoc. unfold nstep_h. destruct (nstep (fst (nrun acts)) a). reflexivity. Qed.

Lemma sum_zset (f : client -> nat) s cl cl' cs : NoDup (map fst cs) -> zget s cs = Some cl ->
  (list_sum (map (fun e => f (snd e)) (zset s cl' cs)) + f cl = list_sum (map (fun e => f (snd e)) cs) + f cl')%nat.
Proof.
  unfold zget, zset. induction cs as [|[k v] cs IH]; intros N G; [discriminate|]. cbn [dget dset] in *. inversion N as [|? ? N1 N2]; subst.
  destruct (s =? k) eqn:E; cbn [map fst snd list_sum fold_right].
  - injection G as ->. unfold list_sum. lia.
  - specialize (IH N2 G). unfold list_sum in *. lia.
Qed.
Lemma len_zset s cl cl' (cs : list (Z * client)) : zget s cs = Some cl -> length (zset s cl' cs) = length cs.
Proof.
  unfold zget, zset. induction cs as [|[k v] cs IH]; intros G; [discriminate|]. cbn [dget dset] in *. destruct (s =? k); [reflexivity|]. cbn. rewrite IH by exact G. reflexivity.
Qed.
Lemma len_post posts cs : length (post posts cs) = length cs.
Proof. unfold post. apply map_length. Qed.
Lemma up_post posts cs : list_sum (map (fun e => length (cl_up (snd e))) (post posts cs)) = list_sum (map (fun e => length (cl_up (snd e))) cs).
Proof. unfold post. rewrite map_map. f_equal. apply map_ext. intros [s cl]. reflexivity. Qed.
Lemma down_post posts cs : (forall s, (length (mail posts s) <= 2)%nat) ->
  (list_sum (map (fun e => length (cl_down (snd e))) (post posts cs)) <= list_sum (map (fun e => length (cl_down (snd e))) cs) + 2 * length cs)%nat.
Proof.
  intros H. unfold post. induction cs as [|[s cl] cs IH]; [cbn; lia|]. cbn [map snd cl_down list_sum fold_right length]. rewrite app_length.
  specialize (H s). unfold list_sum in *. lia.
Qed.

Definition load (n : net) : nat := (to_router n * (1 + 2 * length (nt_clients n)) + to_clients n)%nat.

Lemma load_step acts a : let n := fst (nrun acts) in has_work n a ->
  (load (fst (nstep n a)) < load n)%nat /\ length (nt_clients (fst (nstep n a))) = length (nt_clients n) /\
  forall s, connected s (fst (nstep n a)) = connected s n.
Proof.
  intros n H. destruct (From_run acts) as [[Jb _] [Jd _] _ _ N]. fold n in Jb, Jd, N.
  assert (CZ : forall s cl' cs s', zmem s cs = true -> zmem s' (zset s cl' cs) = @zmem client s' cs).
  { intros s cl' cs s' G. unfold zmem, dmem in *. fold (zget s' (zset s cl' cs)). fold (zget s' cs). fold (zget s cs) in G. rewrite zget_zset.
    destruct (Z.eqb_spec s' s) as [->|]; [|reflexivity]. destruct (zget s cs); [reflexivity|discriminate]. }
  destruct a as [|s|s m|s|s|s m]; cbn [has_work] in H; try contradiction; destruct H as (cl & G & W); destruct cl as [c U D]; cbn [cl_up cl_down] in W.
  - destruct U as [|m U]; [congruence|]. cbn [nstep]. rewrite G. destruct (route (nt_broker n) (nt_dealer n) s m) as [[b' d'] posts] eqn:R. cbn [fst].
    assert (M : forall s', (length (mail posts s') <= 2)%nat).
    { intros s'. destruct (route_rise _ _ _ _ _ _ _ s' Jb Jd R) as [O _]. destruct O as [->|[(x & ->)|(x & e & ->)]]; cbn; lia. }
    pose proof (sum_zset (fun cl => length (cl_up cl)) s _ (mkClient c U D) _ N G) as S1.
    pose proof (sum_zset (fun cl => length (cl_down cl)) s _ (mkClient c U D) _ N G) as S2.
    pose proof (down_post posts (zset s (mkClient c U D) (nt_clients n)) M) as S3.
    pose proof (len_zset s _ (mkClient c U D) _ G) as S4. cbn [cl_up cl_down length] in S1, S2.
    unfold load, to_router, to_clients. cbn [nt_clients]. rewrite up_post, len_post, S4 in *. split; [nia|]. split; [reflexivity|].
    intros s'. unfold connected. cbn [nt_clients]. unfold zmem, dmem.
    fold (zget s' (post posts (zset s (mkClient c U D) (nt_clients n)))). rewrite zget_post. 
    transitivity (zmem s' (zset s (mkClient c U D) (nt_clients n))); [unfold zmem, dmem; fold (zget s' (zset s (mkClient c U D) (nt_clients n))); destruct (zget s' _); reflexivity|].
    apply CZ. unfold zmem, dmem. unfold zget in G. rewrite G. reflexivity.
  - destruct D as [|m D]; [congruence|]. cbn [nstep]. rewrite G. destruct (receive_message c m) as [c' r]. cbn [fst].
    pose proof (sum_zset (fun cl => length (cl_up cl)) s _ (mkClient c' U D) _ N G) as S1.
    pose proof (sum_zset (fun cl => length (cl_down cl)) s _ (mkClient c' U D) _ N G) as S2.
    pose proof (len_zset s _ (mkClient c' U D) _ G) as S4. cbn [cl_up cl_down length] in S1, S2.
    unfold load, to_router, to_clients. cbn [nt_clients]. rewrite S4. split; [nia|]. split; [reflexivity|].
    intros s'. unfold connected. cbn [nt_clients]. apply CZ. unfold zmem, dmem. unfold zget in G. rewrite G. reflexivity.
Qed.

Theorem busy_bounded more : forall acts, busy acts more -> (length more + load (fst (nrun (acts ++ more))) <= load (fst (nrun acts)))%nat /\
  forall s, connected s (fst (nrun (acts ++ more))) = connected s (fst (nrun acts)).
Proof.
  induction more as [|a more IH]; intros acts B; [rewrite app_nil_r; cbn; split; [lia|reflexivity]|].
  pose proof (B [] a more eq_refl) as H. rewrite app_nil_r in H. destruct (load_step acts a H) as (L & _ & C).
  destruct (IH (acts ++ [a])) as (L' & C').
  { intros b x c ->. specialize (B (a :: b) x c eq_refl). rewrite <- app_assoc. exact B. }
  rewrite <- app_assoc in L', C'. cbn [app] in L', C'. rewrite nrun_more in L', C'. split; [cbn [length]; lia|]. intros s. rewrite C', C. reflexivity.
Qed.

Lemma work_or_rest n : (exists a, has_work n a) \/ (forall s cl, zget s (nt_clients n) = Some cl -> cl_up cl = [] /\ cl_down cl = []).
Proof.
  assert (forall cs : list (Z * client), (exists s cl, zget s (nt_clients n) = Some cl /\ (cl_up cl <> [] \/ cl_down cl <> [])) \/
    (forall s cl, In s (map fst cs) -> zget s (nt_clients n) = Some cl -> cl_up cl = [] /\ cl_down cl = [])) as H.
  { induction cs as [|[s cl] cs [IH|IH]]; [right; intros s cl []|left; exact IH|].
    destruct (zget s (nt_clients n)) as [[c U D]|] eqn:G.
    - destruct U as [|m U]; [|left; exists s; eexists; split; [exact G|left; discriminate]].
      destruct D as [|m D]; [|left; exists s; eexists; split; [exact G|right; discriminate]].
      right. intros s' cl' [<-|I0] G'; [|exact (IH s' cl' I0 G')]. cbn in G'. rewrite G in G'. injection G' as <-. auto.
    - right. intros s' cl' [<-|I0] G'; [cbn in G'; congruence|exact (IH s' cl' I0 G')]. }
  destruct (H (nt_clients n)) as [(s & cl & G & [W|W])|K].
  - left. exists (ARoute s), cl. auto.
  - left. exists (ADeliver s), cl. auto.
  - right. intros s cl G. apply (K s cl); [|exact G]. unfold zget in G. clear - G.
    induction (nt_clients n) as [|[k v] cs IH]; [discriminate|]. cbn [dget] in G. destruct (Z.eqb_spec s k) as [->|]; [left; reflexivity|right; exact (IH G)].
Qed.
Theorem rest_idle n s : at_rest n -> connected s n = true -> idle s n.
Proof.
  intros R C. destruct (work_or_rest n) as [[a W]|K]; [destruct (R a W)|]. unfold connected, zmem, dmem in C. fold (zget s (nt_clients n)) in C.
  destruct (zget s (nt_clients n)) as [[c U D]|] eqn:G; [|discriminate]. destruct (K s _ G) as [E1 E2]. cbn in E1, E2. subst. exists c. exact G.
Qed.

Theorem comes_to_rest acts : exists more, busy acts more /\ at_rest (fst (nrun (acts ++ more))).
Proof.
  remember (load (fst (nrun acts))) as k eqn:E. revert acts E. induction k as [k IH] using lt_wf_ind. intros acts ->.
  destruct (work_or_rest (fst (nrun acts))) as [[a W]|K].
  - destruct (load_step acts a W) as (L & _). rewrite <- nrun_more in L. destruct (IH _ L (acts ++ [a]) eq_refl) as (more & B & R).
    exists (a :: more). rewrite <- app_assoc in R. split; [|exact R]. intros [|b0 b] x c E; cbn [app] in E; injection E as <- ->.
    + rewrite app_nil_r. exact W.
    + specialize (B b x c eq_refl). rewrite <- app_assoc in B. exact B.
  - exists []. split; [intros [|b0 b] x c E; discriminate|]. rewrite app_nil_r. intros a W. destruct a as [|s|s m|s|s|s m]; cbn in W; try contradiction;
      destruct W as (cl & G & W); destruct (K s cl G) as [E1 E2]; congruence.
Qed.

(** ** The clients being silent, the conditions on what they send are kept. *)
Lemma busy_silent acts more a : busy acts more -> In a more -> (exists s, a = ARoute s) \/ exists s, a = ADeliver s.
Proof.
  intros B I0. apply in_split in I0. destruct I0 as (b & c & E). specialize (B b a c E). destruct a; cbn in B; try contradiction; eauto.
Qed.
Lemma split_app {A} (l1 l2 b : list A) x c : l1 ++ l2 = b ++ x :: c -> ~ In x l2 -> exists c', l1 = b ++ x :: c' /\ c = c' ++ l2.
Proof.
  revert b. induction l1 as [|y l1 IH]; intros b E H.
  - cbn in E. subst. exfalso. apply H, in_or_app. right. left. reflexivity.
  - destruct b as [|z b]; cbn in E; injection E as <- E; [exists l1; auto|]. destruct (IH b E H) as (c' & -> & ->). exists c'. auto.
Qed.
Lemma busy_reuse hf acts more : busy acts more -> no_reuse hf acts -> no_reuse hf (acts ++ more).
Proof.
  intros B [F R]. split.
  { intros s m I0. apply in_app_or in I0. destruct I0 as [I0|I0]; [exact (F s m I0)|]. destruct (busy_silent _ _ _ B I0) as [[? X]|[? X]]; discriminate. }
  intros before s m1 between m2 after k r E H1 H2 H3.
  assert (S : forall m, ~ In (ASend s m) more) by (intros m I0; destruct (busy_silent _ _ _ B I0) as [[? X]|[? X]]; discriminate).
  assert (E' : acts ++ more = (before ++ ASend s m1 :: between) ++ ASend s m2 :: after) by (rewrite E, <- app_assoc; reflexivity).
  destruct (split_app _ _ _ _ _ E' (S m2)) as (c' & -> & _). rewrite <- app_assoc in R. cbn [app] in R. exact (R before s m1 between m2 c' k r eq_refl H1 H2 H3).
Qed.
Lemma busy_joined acts more : busy acts more -> joined (acts ++ more) = joined acts.
Proof.
  intros B. unfold joined. rewrite flat_map_app. replace (flat_map _ more) with (@nil Z); [apply app_nil_r|]. symmetry.
  assert (H : forall a, In a more -> (exists s, a = ARoute s) \/ exists s, a = ADeliver s) by (intros a; apply busy_silent with (1 := B)). clear B.
  induction more as [|a more IH]; [reflexivity|]. cbn [flat_map]. rewrite IH by (intros x I0; apply H; right; exact I0).
  destruct (H a (or_introl eq_refl)) as [[s ->]|[s ->]]; reflexivity.
Qed.
Lemma busy_progress acts more : busy acts more -> no_progress acts -> no_progress (acts ++ more).
Proof.
  intros B [H|H]; [left|right]; intros s m I0; apply (H s m); unfold has_sent in *; rewrite !in_app_iff in I0; destruct I0 as [[I0|I0]|[I0|I0]]; auto;
    destruct (busy_silent _ _ _ B I0) as [[? X]|[? X]]; discriminate.
Qed.
Lemma busy_stays s acts more : busy acts more -> ~ In (ALeave s) more.
Proof. intros B I0. destruct (busy_silent _ _ _ B I0) as [[? X]|[? X]]; discriminate. Qed.
Lemma stays_connected s more : forall acts, connected s (fst (nrun acts)) = true -> ~ In (ALeave s) more -> connected s (fst (nrun (acts ++ more))) = true.
Proof.
  induction more as [|a more IH]; intros acts C H; [rewrite app_nil_r; exact C|].
  change (a :: more) with ([a] ++ more). rewrite app_assoc. apply IH; [|intros I0; apply H; right; exact I0]. rewrite nrun_more.
  pose proof (fr_nd _ _ (From_run acts)) as N.
  assert (Ha : a <> ALeave s) by (intros ->; apply H; left; reflexivity). set (n := fst (nrun acts)) in *. clearbody n.
  unfold connected, zmem, dmem in *. fold (zget s (nt_clients n)) in C. fold (zget s (nt_clients (fst (nstep n a)))).
  destruct a as [det|s0|s0 m0|s0|s0|s0 m0]; cbn [nstep].
  - destruct (b_add_session _ det) as [b' rb], (d_add_session _ det) as [d' rd]. destruct rb, rd; try exact C. cbn [fst nt_clients]. rewrite zget_zset. destruct (s =? _); [reflexivity|exact C].
  - destruct (b_remove_session _ s0) as [b' rb], (d_remove_session _ s0) as [d' rd]. destruct rb, rd; try exact C. cbn [fst nt_clients]. rewrite zget_zdel by exact N.
    destruct (Z.eqb_spec s s0) as [->|]; [congruence|exact C].
  - destruct (zget s0 (nt_clients n)) as [cl|]; [|exact C]. destruct (send_track _ m0) as [c' r]. cbn [fst nt_clients]. rewrite zget_zset. destruct (s =? _); [reflexivity|exact C].
  - destruct (zget s0 (nt_clients n)) as [[c [|u U] D]|]; try exact C. destruct (route _ _ s0 u) as [[b' d'] posts]. cbn [fst nt_clients]. rewrite zget_post, zget_zset.
    destruct (s =? _); [reflexivity|]. destruct (zget s (nt_clients n)); [reflexivity|discriminate].
  - destruct (zget s0 (nt_clients n)) as [[c U [|u D]]|]; try exact C. destruct (receive_message c u) as [c' r]. cbn [fst nt_clients]. rewrite zget_zset. destruct (s =? _); [reflexivity|exact C].
  - destruct (zget s0 (nt_clients n)) as [cl|]; [|exact C]. cbn [fst nt_clients]. rewrite zget_zset. destruct (s =? _); [reflexivity|exact C].
Qed.
