(** * HostileRest: a network in which nobody sends comes to rest, whatever bytes have been sent before.  Proofs only. *)
From Coq Require Import List ZArith Bool Lia.
From Verif Require Import PyBase DictFacts Messages Serializer Session Joiner Broker Dealer BrokerFacts DealerFacts Network SpecNetwork NetworkFacts NetworkInv NetworkFlow.
From Verif Require Import NetworkOrigin NetworkOnce SpecOrder NetworkOrder ByteNetwork SpecByteNetwork HostileNetwork SpecHostile SpecHostileRest HostileFacts HostileSim HostileFlow HostileLive.
Import ListNotations.
Local Open Scope Z_scope.
Local Open Scope list_scope.

Lemma hrun_more acts a : fst (hrun (acts ++ [a])) = fst (hstep (fst (hrun acts)) a).
Proof. rewrite hrun_snoc. unfold hstep_h. destruct (hstep (fst (hrun acts)) a). reflexivity. Qed.
Lemma hsum_zset (f : bclient -> nat) s cl cl' cs : NoDup (map fst cs) -> zget s cs = Some cl ->
  (list_sum (map (fun e => f (snd e)) (zset s cl' cs)) + f cl = list_sum (map (fun e => f (snd e)) cs) + f cl')%nat.
Proof.
  unfold zget, zset. induction cs as [|[k v] cs IH]; intros N G; [discriminate|]. cbn [dget dset] in *. inversion N as [|? ? N1 N2]; subst.
  destruct (s =? k) eqn:E; cbn [map fst snd list_sum fold_right].
  - injection G as ->. unfold list_sum. lia.
  - specialize (IH N2 G). unfold list_sum in *. lia.
Qed.
Lemma hlen_zset s cl cl' (cs : list (Z * bclient)) : zget s cs = Some cl -> length (zset s cl' cs) = length cs.
Proof.
  unfold zget, zset. induction cs as [|[k v] cs IH]; intros G; [discriminate|]. cbn [dget dset] in *. destruct (s =? k); [reflexivity|]. cbn. rewrite IH by exact G. reflexivity.
Qed.
Lemma hlen_post posts cs : length (bpost posts cs) = length cs.
Proof. unfold bpost. apply map_length. Qed.
Lemma hup_post posts cs : list_sum (map (fun e => length (bc_up (snd e))) (bpost posts cs)) = list_sum (map (fun e => length (bc_up (snd e))) cs).
Proof. unfold bpost. rewrite map_map. f_equal. apply map_ext. intros [s cl]. reflexivity. Qed.
Lemma encoded_length c ms : (length (encoded c ms) <= length ms)%nat.
Proof. unfold encoded. induction ms as [|m ms IH]; [cbn; lia|]. cbn [flat_map]. rewrite app_length. destruct (serialize c m); cbn [length]; lia. Qed.
Lemma hdown_post posts cs : (forall s, (length (mail posts s) <= 2)%nat) ->
  (list_sum (map (fun e => length (bc_down (snd e))) (bpost posts cs)) <= list_sum (map (fun e => length (bc_down (snd e))) cs) + 2 * length cs)%nat.
Proof.
  intros H. unfold bpost. induction cs as [|[s cl] cs IH]; [cbn; lia|]. cbn [map snd bc_down list_sum fold_right length]. rewrite app_length.
  specialize (H s). pose proof (encoded_length (bc_codec cl) (mail posts s)). unfold list_sum in *. lia.
Qed.
Definition nobody (s : Z) : bool := false.
Lemma nobody_fitting acts : Forall (fitting nobody) acts.
Proof. rewrite Forall_forall. intros a _. destruct a as [[]|]; cbn; try exact Logic.I; try discriminate. reflexivity. Qed.
Lemma halike_keys gd d' d : halike gd d' d -> map fst d' = map fst d.
Proof. intros H. induction H as [|[k x] [k' y] d' d [A _] _ IH]; [reflexivity|]. cbn in *. congruence. Qed.
Lemma mem_zset s cl' (cs : list (Z * bclient)) s' cl : zget s cs = Some cl -> zmem s' (zset s cl' cs) = zmem s' cs.
Proof.
  intros G. unfold zmem, dmem. fold (zget s' (zset s cl' cs)). fold (zget s' cs). rewrite zget_zset. destruct (Z.eqb_spec s' s) as [->|]; [|reflexivity]. rewrite G. reflexivity.
Qed.
Lemma mem_post s posts (cs : list (Z * bclient)) : zmem s (bpost posts cs) = zmem s cs.
Proof. unfold zmem, dmem. induction cs as [|[k v] cs IH]; [reflexivity|]. cbn [bpost map dget]. destruct (s =? k); [reflexivity|exact IH]. Qed.

Definition hload (n : bnet) : nat := (h_to_router n * (1 + 2 * length (bn_clients n)) + h_to_clients n)%nat.
Lemma hload_step acts a : let n := fst (hrun acts) in h_has_work n a ->
  (hload (fst (hstep n a)) < hload n)%nat /\ length (bn_clients (fst (hstep n a))) = length (bn_clients n) /\
  forall s, bytes_connected s (fst (hstep n a)) = bytes_connected s n.
Proof.
  intros n H. destruct (From_run (lower nobody acts)) as [[Jb _] [Jd _] _ _ N]. destruct (hsim_run nobody acts (nobody_fitting acts)) as (Lk & Eb & Ed & _).
  unfold at_end in *. fold n in Lk, Eb, Ed. rewrite <- Eb in Jb. rewrite <- Ed in Jd. rewrite <- (halike_keys _ _ _ Lk) in N.
  destruct a as [[|s|s m|s|s]|s b]; cbn [h_has_work] in H; try contradiction; destruct H as (cl & G & W); destruct cl as [c se U D]; cbn [bc_up bc_down] in W.
  - destruct U as [|b U]; [congruence|]. cbn [hstep bytes_step]. rewrite G.
    destruct (match deserialize c b with Ok m => _ | Raise _ => _ end) as [[b' d'] posts] eqn:R. cbn [fst].
    assert (M : forall s', (length (mail posts s') <= 2)%nat).
    { intros s'. destruct (deserialize c b) as [m|e]; [|injection R as _ _ <-; cbn; lia].
      destruct (route_rise _ _ _ _ _ _ _ s' Jb Jd R) as [O _]. destruct O as [->|[(x & ->)|(x & e & ->)]]; cbn; lia. }
    pose proof (hsum_zset (fun cl => length (bc_up cl)) s _ (mkBClient c se U D) _ N G) as S1.
    pose proof (hsum_zset (fun cl => length (bc_down cl)) s _ (mkBClient c se U D) _ N G) as S2.
    pose proof (hdown_post posts (zset s (mkBClient c se U D) (bn_clients n)) M) as S3.
    pose proof (hlen_zset s _ (mkBClient c se U D) _ G) as S4. cbn [bc_up bc_down length] in S1, S2.
    unfold hload, h_to_router, h_to_clients. cbn [bn_clients]. rewrite hup_post, hlen_post, S4 in *. split; [nia|]. split; [reflexivity|].
    intros s'. unfold bytes_connected. cbn [bn_clients]. rewrite mem_post. apply mem_zset with (1 := G).
  - destruct D as [|b D]; [congruence|]. cbn [hstep bytes_step]. rewrite G. destruct (receive c se b) as [se' r]. cbn [fst].
    pose proof (hsum_zset (fun cl => length (bc_up cl)) s _ (mkBClient c se' U D) _ N G) as S1.
    pose proof (hsum_zset (fun cl => length (bc_down cl)) s _ (mkBClient c se' U D) _ N G) as S2.
    pose proof (hlen_zset s _ (mkBClient c se' U D) _ G) as S4. cbn [bc_up bc_down length] in S1, S2.
    unfold hload, h_to_router, h_to_clients. cbn [bn_clients]. rewrite S4. split; [nia|]. split; [reflexivity|].
    intros s'. unfold bytes_connected. cbn [bn_clients]. apply mem_zset with (1 := G).
Qed.
Theorem h_busy_bounded more : forall acts, h_busy acts more -> (length more + hload (fst (hrun (acts ++ more))) <= hload (fst (hrun acts)))%nat /\
  forall s, bytes_connected s (fst (hrun (acts ++ more))) = bytes_connected s (fst (hrun acts)).
Proof.
  induction more as [|a more IH]; intros acts B; [rewrite app_nil_r; cbn; split; [lia|reflexivity]|].
  pose proof (B [] a more eq_refl) as H. rewrite app_nil_r in H. destruct (hload_step acts a H) as (L & _ & C).
  destruct (IH (acts ++ [a])) as (L' & C').
  { intros b x c ->. specialize (B (a :: b) x c eq_refl). rewrite <- app_assoc. exact B. }
  rewrite <- app_assoc in L', C'. cbn [app] in L', C'. rewrite hrun_more in L', C'. split; [cbn [length]; lia|]. intros s. rewrite C', C. reflexivity.
Qed.
Lemma h_work_or_rest n : (exists a, h_has_work n a) \/ (forall s cl, zget s (bn_clients n) = Some cl -> bc_up cl = [] /\ bc_down cl = []).
Proof.
  assert (forall cs : list (Z * bclient), (exists s cl, zget s (bn_clients n) = Some cl /\ (bc_up cl <> [] \/ bc_down cl <> [])) \/
    (forall s cl, In s (map fst cs) -> zget s (bn_clients n) = Some cl -> bc_up cl = [] /\ bc_down cl = [])) as H.
  { induction cs as [|[s cl] cs [IH|IH]]; [right; intros s cl []|left; exact IH|].
    destruct (zget s (bn_clients n)) as [[c se U D]|] eqn:G.
    - destruct U as [|m U]; [|left; exists s; eexists; split; [exact G|left; discriminate]].
      destruct D as [|m D]; [|left; exists s; eexists; split; [exact G|right; discriminate]].
      right. intros s' cl' [<-|I0] G'; [|exact (IH s' cl' I0 G')]. cbn in G'. rewrite G in G'. injection G' as <-. auto.
    - right. intros s' cl' [<-|I0] G'; [cbn in G'; congruence|exact (IH s' cl' I0 G')]. }
  destruct (H (bn_clients n)) as [(s & cl & G & [W|W])|K].
  - left. exists (HAct (WRoute s)), cl. auto.
  - left. exists (HAct (WDeliver s)), cl. auto.
  - right. intros s cl G. apply (K s cl); [|exact G]. unfold zget in G. clear - G.
    induction (bn_clients n) as [|[k v] cs IH]; [discriminate|]. cbn [dget] in G. destruct (Z.eqb_spec s k) as [->|]; [left; reflexivity|right; exact (IH G)].
Qed.
Theorem h_rest_idle n s : h_at_rest n -> bytes_connected s n = true -> bytes_idle s n.
Proof.
  intros R C. destruct (h_work_or_rest n) as [[a W]|K]; [destruct (R a W)|]. unfold bytes_connected, zmem, dmem in C. fold (zget s (bn_clients n)) in C.
  destruct (zget s (bn_clients n)) as [[c se U D]|] eqn:G; [|discriminate]. destruct (K s _ G) as [E1 E2]. cbn in E1, E2. subst. exists c, se. exact G.
Qed.
Theorem h_comes_to_rest acts : exists more, h_busy acts more /\ h_at_rest (fst (hrun (acts ++ more))).
Proof.
  remember (hload (fst (hrun acts))) as k eqn:E. revert acts E. induction k as [k IH] using lt_wf_ind. intros acts ->.
  destruct (h_work_or_rest (fst (hrun acts))) as [[a W]|K].
  - destruct (hload_step acts a W) as (L & _). rewrite <- hrun_more in L. destruct (IH _ L (acts ++ [a]) eq_refl) as (more & B & R).
    exists (a :: more). rewrite <- app_assoc in R. split; [|exact R]. intros [|b0 b] x c E; cbn [app] in E; injection E as <- ->.
    + rewrite app_nil_r. exact W.
    + specialize (B b x c eq_refl). rewrite <- app_assoc in B. exact B.
  - exists []. split; [intros [|b0 b] x c E; discriminate|]. rewrite app_nil_r. intros a W. destruct a as [[|s|s m|s|s]|s b]; cbn in W; try contradiction;
      destruct W as (cl & G & W); destruct (K s cl G) as [E1 E2]; congruence.
Qed.

(** ** The clients being silent, the conditions on what they send are kept. *)
Definition quiet (a : haction) : Prop := (exists s, a = HAct (WRoute s)) \/ exists s, a = HAct (WDeliver s).
Lemma h_busy_quiet acts more a : h_busy acts more -> In a more -> quiet a.
Proof.
  intros B I0. apply in_split in I0. destruct I0 as (b & c & E). specialize (B b a c E). destruct a as [[]|]; cbn in B; try contradiction; unfold quiet; eauto.
Qed.
Lemma quiet_honest s acts more : (forall a, In a more -> quiet a) -> honest s acts -> honest s (acts ++ more).
Proof.
  intros B H. apply Forall_app. split; [exact H|]. rewrite Forall_forall. intros a I0. destruct (B a I0) as [[x ->]|[x ->]]; exact Logic.I.
Qed.
Lemma quiet_disciplined hf s acts more : (forall a, In a more -> quiet a) -> h_disciplined hf s acts -> h_disciplined hf s (acts ++ more).
Proof.
  intros B [H1 H2]. assert (NS : forall x m, ~ In (HAct (WSend x m)) more) by (intros x m I0; destruct (B _ I0) as [[? X]|[? X]]; discriminate). split.
  - intros before m1 between m2 after k r E Hk A1 A2. rewrite h_app_cons, app_assoc in E. apply split_app in E.
    destruct E as [(l2 & E & _)|(P2 & _ & E)]; [|destruct (NS s m2); rewrite E; apply in_elt]. rewrite <- app_assoc in E. cbn [app] in E. rewrite <- app_assoc in E. exact (H1 _ _ _ _ _ _ _ E Hk A1 A2).
  - intros R. destruct (H2 R) as [X Y]. split.
    + unfold h_joined in *. rewrite flat_map_app. replace (flat_map _ more) with (@nil Z); [rewrite app_nil_r; exact X|]. clear - B.
      induction more as [|a more IH]; [reflexivity|]. cbn [flat_map]. rewrite <- IH by (intros x I0; apply B; right; exact I0). destruct (B a (or_introl eq_refl)) as [[s ->]|[s ->]]; reflexivity.
    + intros m I0. apply in_app_or in I0. destruct I0 as [I0|I0]; [exact (Y m I0)|destruct (NS _ _ I0)].
Qed.
Lemma h_stays_connected s more : forall acts, bytes_connected s (fst (hrun acts)) = true -> ~ In (HAct (WLeave s)) more -> bytes_connected s (fst (hrun (acts ++ more))) = true.
Proof.
  induction more as [|a more IH]; intros acts C H; [rewrite app_nil_r; exact C|].
  change (a :: more) with ([a] ++ more). rewrite app_assoc. apply IH; [|intros I0; apply H; right; exact I0]. rewrite hrun_more.
  assert (Ha : a <> HAct (WLeave s)) by (intros ->; apply H; left; reflexivity). set (n := fst (hrun acts)) in *. clearbody n.
  assert (MZ : forall s0 cl', zmem s (zset s0 cl' (bn_clients n)) = true).
  { intros s0 cl'. unfold bytes_connected, zmem, dmem in *. fold (zget s (zset s0 cl' (bn_clients n))). rewrite zget_zset. destruct (s =? s0); [reflexivity|exact C]. }
  unfold bytes_connected in *. destruct a as [[det c|s0|s0 m0|s0|s0]|s0 b]; cbn [hstep bytes_step].
  - destruct (b_add_session _ det) as [b' rb], (d_add_session _ det) as [d' rd]. destruct rb, rd; try exact C. apply MZ.
  - destruct (b_remove_session _ s0) as [b' rb], (d_remove_session _ s0) as [d' rd]. destruct rb, rd; try exact C. cbn [fst bn_clients].
    unfold zmem, dmem in *. fold (zget s (zdel s0 (bn_clients n))). rewrite zget_zdel_other by congruence. exact C.
  - destruct (zget s0 (bn_clients n)) as [cl|]; [|exact C]. destruct (send_message _ _ m0) as [c' r]. apply MZ.
  - destruct (zget s0 (bn_clients n)) as [[c se [|u U] D]|]; try exact C. destruct (match deserialize c u with Ok m => _ | Raise _ => _ end) as [[b' d'] posts]. cbn [fst bn_clients]. rewrite mem_post. apply MZ.
  - destruct (zget s0 (bn_clients n)) as [[c se U [|u D]]|]; try exact C. destruct (receive c se u) as [c' r]. apply MZ.
  - destruct (zget s0 (bn_clients n)) as [cl|]; [|exact C]. apply MZ.
Qed.
(** So a request is answered as soon as the network is at rest. *)
Lemma h_at_rest_answered before s m after more : let acts := before ++ HAct (WSend s m) :: after in
  h_busy acts more -> h_at_rest (fst (hrun (acts ++ more))) -> bytes_connected s (fst (hrun before)) = true -> ~ In (HAct (WLeave s)) after ->
  bytes_idle s (fst (hrun (acts ++ more))) /\ ~ In (HAct (WLeave s)) (after ++ more).
Proof.
  intros acts B Q C Hl. split.
  - apply h_rest_idle; [exact Q|]. rewrite (proj2 (h_busy_bounded more acts B)). unfold acts. apply h_stays_connected; [exact C|]. intros [X|I0]; [discriminate|exact (Hl I0)].
  - intros I0. apply in_app_iff in I0. destruct I0 as [I0|I0]; [exact (Hl I0)|]. destruct (h_busy_quiet _ _ _ B I0) as [[? X]|[? X]]; discriminate.
Qed.
