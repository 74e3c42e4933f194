(** * NetworkOnce: no event and no invocation arrives twice. *)
From Coq Require Import String Ascii List ZArith Bool Lia Permutation.
From Verif Require Import PyBase Messages IdGen DictFacts SpecHistory Session Joiner.
From Verif Require Import Broker SpecBroker BrokerRun BrokerFacts Dealer SpecDealer DealerRun DealerFacts Network SpecNetwork NetworkFacts NetworkInv NetworkLive NetworkFlow.
Import ListNotations.
Local Open Scope string_scope.
Local Open Scope Z_scope.
Local Open Scope list_scope.

Definition down (s : Z) (n : net) : list message := match zget s (nt_clients n) with Some cl => cl_down cl | None => [] end.
Definition fresh_marks (l : list Z) (g g' : Z) : Prop := l = [] \/ exists x, l = [x] /\ g < x <= g'.

Lemma publications_app a b : publications (a ++ b) = publications a ++ publications b.
Proof. apply flat_map_app. Qed.
Lemma invocation_ids_app a b : invocation_ids (a ++ b) = invocation_ids a ++ invocation_ids b.
Proof. apply flat_map_app. Qed.

Lemma next_small g g' x : next_id g = (g', x) -> g < ID_MAX -> g' = g + 1 /\ x = g + 1.
Proof. unfold next_id. destruct (Z.eqb_spec g ID_MAX); [lia|]. intros [= <- <-] _. auto. Qed.

Lemma mail_events e l s : NoDup l -> mail (map (fun r => mkRouted (Event e) r) l) s = if in_dec Z.eq_dec s l then [Event e] else [].
Proof.
  induction l as [|x l IH]; intros N; [reflexivity|]. inversion N as [|? ? Hx N']. subst. cbn [map]. change (mkRouted (Event e) x :: map (fun r => mkRouted (Event e) r) l)
    with ([mkRouted (Event e) x] ++ map (fun r => mkRouted (Event e) r) l). rewrite mail_app, mail_one, (IH N').
  destruct (Z.eqb_spec x s) as [->|Hne].
  - destruct (in_dec Z.eq_dec s l); [contradiction|]. destruct (in_dec Z.eq_dec s (s :: l)) as [|X]; [reflexivity|]. destruct X. left. reflexivity.
  - destruct (in_dec Z.eq_dec s l) as [Y|Y]; destruct (in_dec Z.eq_dec s (x :: l)) as [X|X]; try reflexivity.
    + destruct X. right. exact Y.
    + destruct X as [X|X]; contradiction.
Qed.

Lemma mail_quiet_p x r s : publications [x] = [] -> publications (mail [mkRouted x r] s) = [].
Proof. rewrite mail_one. destruct (r =? s); auto. Qed.
Lemma mail_quiet_i x r s : invocation_ids [x] = [] -> invocation_ids (mail [mkRouted x r] s) = [].
Proof. rewrite mail_one. destruct (r =? s); auto. Qed.

Lemma b_marks b hb o b' r : BInv b hb -> b_room o hb -> boutcome b o b' r ->
  b_idgen b <= b_idgen b' /\
  match r with
  | ORouted rt => publications [rt_message rt] = [] /\ invocation_ids [rt_message rt] = []
  | OPub p => (match pu_ack p with Some rt => exists x, rt_message rt = Published x | None => True end) /\
      match pu_event p with Some e => b_idgen b < pyint_Z (ev_publication e) <= b_idgen b' /\ NoDup (pu_recipients p) | None => True end
  | _ => True
  end.
Proof.
  intros ((W & O & SS) & _ & T) [L0 L] Ho. specialize (T ltac:(lia)). pose proof (tr_gen _ _ T) as Lg. rewrite <- Lg in L.
  destruct Ho; cbv beta iota in L; cbn [b_idgen]; try (split; [lia|]; auto; fail).
  all: try (match goal with X : next_id _ = _, Y : _ < ID_MAX |- _ => apply next_small in X; [|exact Y]; destruct X as [-> ->] end).
  all: try (split; [lia|split; reflexivity]).
  all: try (match goal with X : b_idgen _ = b_idgen _ |- _ => rewrite X end; split; [lia|]; auto; fail).
  cbn [set_bidgen b_idgen pu_ack pu_event pu_recipients]. split; [lia|]. split; [destruct (truthy _); [eexists; reflexivity|exact Logic.I]|].
  destruct (tget _ _) as [l|]; [|exact Logic.I]. destruct (at_ b l) as [sub|] eqn:E; cbn [option_map]; [|exact Logic.I].
  cbn [ev_publication pyint_Z]. split; [lia|]. exact (sh_nd_subs _ W _ _ E).
Qed.
Lemma d_marks d hd o d' r : DInv d hd -> d_room o hd -> doutcome d o d' r ->
  d_idgen d <= d_idgen d' /\
  match r with
  | DRouted rt => publications [rt_message rt] = [] /\
      ((forall s c, o = DMsg s (Call c) -> wants "progress" (ca_options c) = false) -> fresh_marks (invocation_ids [rt_message rt]) (d_idgen d) (d_idgen d'))
  | _ => True
  end.
Proof.
  intros ((W & O & SS) & _ & _ & T) [L0 L] Ho. specialize (T ltac:(lia)). pose proof (dt_gen _ _ T) as Lg. rewrite <- Lg in L.
  destruct Ho; cbv beta iota in L; cbn [d_idgen set_dsessions set_dsession add_call set_dcalls set_dpending set_didgen]; try (split; [lia|]; auto; fail).
  all: try (match goal with X : next_id _ = _, Y : _ < ID_MAX |- _ => apply next_small in X; [|exact Y]; destruct X as [-> ->] end).
  all: try (match goal with X : d_idgen _ = d_idgen _ |- _ => rewrite X end).
  all: split; [lia|]; auto.
  all: split; [reflexivity|]; intros Hp.
  all: try (left; reflexivity).
  - right. exists (d_idgen d + 1). split; [reflexivity|]. lia.
  - exfalso. specialize (Hp _ _ eq_refl). congruence.
Qed.

Lemma route_marks b d hb hd s m b' d' posts : BInv b hb -> ids_issued hb < ID_MAX -> DInv d hd -> d_ids_issued hd < ID_MAX ->
  route b d s m = (b', d', posts) ->
  b_idgen b <= b_idgen b' /\ d_idgen d <= d_idgen d' /\
  forall s', fresh_marks (publications (mail posts s')) (b_idgen b) (b_idgen b') /\
    ((forall c, m = Call c -> wants "progress" (ca_options c) = false) -> fresh_marks (invocation_ids (mail posts s')) (d_idgen d) (d_idgen d')).
Proof.
  intros Jb Lb Jd Ld R. pose proof (bstep_outcome b (BMsg s m) (proj1 Jb)) as Ob. pose proof (dstep_outcome d (DMsg s m) (proj1 Jd)) as Od. cbn [bstep dstep] in Ob, Od.
  assert (Q : forall b0 d0 s', fresh_marks (publications (mail [] s')) (b_idgen b) b0 /\ ((forall c, m = Call c -> wants "progress" (ca_options c) = false) -> fresh_marks (invocation_ids (mail [] s')) (d_idgen d) d0)).
  { intros. split; intros; left; reflexivity. }
  destruct m; cbn [route] in R; try (injection R as <- <- <-; split; [lia|split; [lia|auto]]; fail).
  all: try (match type of R with context [d_receive_message _ _ _] =>
    destruct (d_receive_message d s _) as [d1 r1]; injection R as <- <- <-; cbn [fst snd] in Od; apply (d_marks d hd _ _ _ Jd (d_room_lt _ _ Ld)) in Od;
    destruct Od as [M1 M2]; split; [lia|split; [exact M1|]]; intros s'; destruct r1 as [[x rc]|]; [|apply Q]; cbn [d_out_of rt_message] in M2; destruct M2 as [M2 M3];
    split; [left; apply mail_quiet_p; exact M2|]; intros Hp; rewrite mail_one; destruct (rc =? s'); [|left; reflexivity];
    apply M3; intros s0 c0 E; injection E; intros; subst; apply Hp; congruence end).
  all: try (match type of R with context [b_receive_message _ _ _] =>
    destruct (b_receive_message b s _) as [b1 r1]; injection R as <- <- <-; cbn [fst snd] in Ob; apply (b_marks b hb _ _ _ Jb (b_room_lt _ _ Lb)) in Ob;
    destruct Ob as [M1 M2]; split; [exact M1|split; [lia|]]; intros s'; destruct r1 as [[x rc]|]; [|apply Q]; cbn [out_of rt_message] in M2; destruct M2 as [M2 M3];
    split; [left; apply mail_quiet_p; exact M2|intros _; left; apply mail_quiet_i; exact M3] end).
  pose proof (bstep_outcome b (BPub s m) (proj1 Jb)) as Op. cbn [bstep] in Op. destruct (b_receive_publish b s m) as [b1 r1].
  cbn [fst snd] in Op. apply (b_marks b hb _ _ _ Jb (b_room_lt _ _ Lb)) in Op. destruct Op as [M1 M2]. destruct r1 as [p|e]; cbn [out_of] in *; injection R as <- <- <-.
  - split; [exact M1|split; [lia|]]. intros s'. destruct M2 as [M2 M3]. rewrite mail_app, publications_app, invocation_ids_app.
    assert (K1 : publications (mail (match pu_ack p with Some a => [a] | None => [] end) s') = [] /\ invocation_ids (mail (match pu_ack p with Some a => [a] | None => [] end) s') = []).
    { destruct (pu_ack p) as [[x rc]|]; [|auto]. destruct M2 as [y E]. cbn [rt_message] in E. subst x. rewrite mail_one. destruct (rc =? s'); auto. }
    destruct K1 as [K1 K2]. rewrite K1, K2. cbn [app]. destruct (pu_event p) as [e|]; [|apply Q]. destruct M3 as [M3 M4].
    rewrite mail_events by exact M4. destruct (in_dec Z.eq_dec s' (pu_recipients p)); split; intros; try (left; reflexivity). right. eexists. split; [reflexivity|exact M3].
  - split; [exact M1|split; [lia|]]. apply Q.
Qed.

Definition no_chunks (acts : list action) : Prop := forall s c, has_sent acts s (Call c) -> wants "progress" (ca_options c) = false.
Record OInv (acts : list action) (n : net) (t : ntrace) : Prop := {
  oi_b : exists h, BInv (nt_broker n) h /\ ids_issued h <= routings acts;
  oi_d : exists h, DInv (nt_dealer n) h /\ d_ids_issued h <= routings acts;
  oi_nd : NoDup (map fst (nt_clients n));
  oi_up : forall s cl m, zget s (nt_clients n) = Some cl -> In m (cl_up cl) -> has_sent acts s m;
  oi_p : forall s, NoDup (publications (down s n ++ inbox s t)) /\ Forall (fun x => x <= b_idgen (nt_broker n)) (publications (down s n ++ inbox s t));
  oi_i : no_chunks acts -> forall s, NoDup (invocation_ids (down s n ++ inbox s t)) /\
    Forall (fun x => x <= d_idgen (nt_dealer n)) (invocation_ids (down s n ++ inbox s t)) }.

Lemma NoDup_marks l g l' g' : NoDup l -> Forall (fun x => x <= g) l -> g <= g' -> fresh_marks l' g g' ->
  NoDup (l' ++ l) /\ Forall (fun x => x <= g') (l' ++ l).
Proof.
  intros N F Hg [->|(x & -> & Hx)]; cbn [app].
  - split; [exact N|]. eapply Forall_impl; [|exact F]. cbn. lia.
  - split.
    + constructor; [|exact N]. intros Hin. rewrite Forall_forall in F. specialize (F x Hin). lia.
    + constructor; [lia|]. eapply Forall_impl; [|exact F]. cbn. lia.
Qed.
Lemma good_perm (l l' : list Z) g : Permutation l l' -> NoDup l /\ Forall (fun x => x <= g) l -> NoDup l' /\ Forall (fun x => x <= g) l'.
Proof. intros P [N F]. split; [exact (Permutation_NoDup P N)|exact (Permutation_Forall P F)]. Qed.
Lemma good_drop (l1 l2 : list Z) g : NoDup (l1 ++ l2) /\ Forall (fun x => x <= g) (l1 ++ l2) -> NoDup l2 /\ Forall (fun x => x <= g) l2.
Proof. intros [N F]. split; [exact (NoDup_app_r _ _ N)|]. apply Forall_app in F. apply F. Qed.
Lemma good_up (l : list Z) g g' : g <= g' -> NoDup l /\ Forall (fun x => x <= g) l -> NoDup l /\ Forall (fun x => x <= g') l.
Proof. intros H [N F]. split; [exact N|]. eapply Forall_impl; [|exact F]. cbn. lia. Qed.

Lemma OInv_step acts n t a : OInv acts n t -> routings (acts ++ [a]) <= ID_MAX ->
  OInv (acts ++ [a]) (fst (nstep n a)) ((a, snd (nstep n a)) :: t).
Proof.
  intros [(hb & Jb & Lb) (hd & Jd & Ld) Hnd Hup Hp Hi] L.
  assert (Len := routings_snoc acts a). assert (Le := routings_mono acts a).
  assert (NC : no_chunks (acts ++ [a]) -> no_chunks acts) by (intros H s c X; apply (H s c), has_sent_app, X).
  assert (Bq : exists h, BInv (nt_broker n) h /\ ids_issued h <= routings (acts ++ [a])) by (exists hb; split; [exact Jb|lia]).
  assert (Dq : exists h, DInv (nt_dealer n) h /\ d_ids_issued h <= routings (acts ++ [a])) by (exists hd; split; [exact Jd|lia]).
  assert (Upq : forall s cl m, zget s (nt_clients n) = Some cl -> In m (cl_up cl) -> has_sent (acts ++ [a]) s m) by (intros; apply has_sent_app; eauto).
  assert (Quiet : snd (nstep n a) = Quiet -> fst (nstep n a) = n -> OInv (acts ++ [a]) (fst (nstep n a)) ((a, snd (nstep n a)) :: t)).
  { intros E1 E2. rewrite E1, E2. constructor; auto.
    - intros s. cbn [inbox flat_map]. destruct a; apply Hp.
    - intros H s. cbn [inbox flat_map]. destruct a; apply Hi, NC, H. }
  destruct a as [det|s0|s0 m0|s0|s0|s0 m0]; cbn [nstep] in *.
  - pose proof (BInv_step _ _ (BJoin det) Jb) as Jb'. pose proof (DInv_step _ _ (DJoin det) Jd) as Jd'.
    pose proof (bstep_outcome (nt_broker n) (BJoin det) (proj1 Jb)) as Ob. pose proof (dstep_outcome (nt_dealer n) (DJoin det) (proj1 Jd)) as Od. cbn [bstep dstep] in *.
    destruct (b_add_session _ det) as [b' rb], (d_add_session _ det) as [d' rd]. destruct rb; [|apply Quiet; reflexivity]. destruct rd; [|apply Quiet; reflexivity].
    cbn [fst snd] in *. cbn [is_route] in Len. apply (b_marks _ hb) in Ob; [|exact Jb|split; [lia|exact Logic.I]]. apply (d_marks _ hd) in Od; [|exact Jd|split; [lia|exact Logic.I]]. destruct Ob as [Ob _], Od as [Od _].
    assert (Dn : forall s, exists l, down s n = l ++ down s (mkNet (zset (pyint_Z (det_session det)) (mkClient session_init [] []) (nt_clients n)) b' d')).
    { intros s. unfold down. cbn [nt_clients]. rewrite zget_zset. destruct (s =? _); [eexists; rewrite app_nil_r; reflexivity|exists []; reflexivity]. }
    constructor; cbn [nt_broker nt_dealer nt_clients].
    + eexists. split; [exact Jb'|]. cbn [ids_issued takes_id subscribes]. lia.
    + eexists. split; [exact Jd'|]. cbn [d_ids_issued d_takes_id registers invokes]. lia.
    + apply (NoDup_dset _ Zeqb_ok). exact Hnd.
    + intros s cl m. rewrite zget_zset. destruct (s =? _); [intros [= <-] []|apply Upq].
    + intros s. cbn [inbox flat_map]. destruct (Dn s) as [l E]. specialize (Hp s). rewrite E, <- app_assoc, publications_app in Hp. apply good_drop in Hp. exact (good_up _ _ _ Ob Hp).
    + intros H s. cbn [inbox flat_map]. destruct (Dn s) as [l E]. specialize (Hi (NC H) s). rewrite E, <- app_assoc, invocation_ids_app in Hi. apply good_drop in Hi. exact (good_up _ _ _ Od Hi).
  - pose proof (BInv_step _ _ (BLeave s0) Jb) as Jb'. pose proof (DInv_step _ _ (DLeave s0) Jd) as Jd'.
    pose proof (bstep_outcome (nt_broker n) (BLeave s0) (proj1 Jb)) as Ob. pose proof (dstep_outcome (nt_dealer n) (DLeave s0) (proj1 Jd)) as Od. cbn [bstep dstep] in *.
    destruct (b_remove_session _ s0) as [b' rb], (d_remove_session _ s0) as [d' rd]. destruct rb; [|apply Quiet; reflexivity]. destruct rd; [|apply Quiet; reflexivity].
    cbn [fst snd] in *. cbn [is_route] in Len. apply (b_marks _ hb) in Ob; [|exact Jb|split; [lia|exact Logic.I]]. apply (d_marks _ hd) in Od; [|exact Jd|split; [lia|exact Logic.I]]. destruct Ob as [Ob _], Od as [Od _].
    assert (Dn : forall s, exists l, down s n = l ++ down s (mkNet (zdel s0 (nt_clients n)) b' d')).
    { intros s. unfold down. cbn [nt_clients]. rewrite zget_zdel by exact Hnd. destruct (s =? _); [eexists; rewrite app_nil_r; reflexivity|exists []; reflexivity]. }
    constructor; cbn [nt_broker nt_dealer nt_clients].
    + eexists. split; [exact Jb'|]. cbn [ids_issued takes_id subscribes]. lia.
    + eexists. split; [exact Jd'|]. cbn [d_ids_issued d_takes_id registers invokes]. lia.
    + apply (NoDup_ddel _). exact Hnd.
    + intros s cl m. rewrite zget_zdel by exact Hnd. destruct (s =? _); [discriminate|apply Upq].
    + intros s. cbn [inbox flat_map]. destruct (Dn s) as [l E]. specialize (Hp s). rewrite E, <- app_assoc, publications_app in Hp. apply good_drop in Hp. exact (good_up _ _ _ Ob Hp).
    + intros H s. cbn [inbox flat_map]. destruct (Dn s) as [l E]. specialize (Hi (NC H) s). rewrite E, <- app_assoc, invocation_ids_app in Hi. apply good_drop in Hi. exact (good_up _ _ _ Od Hi).
  - destruct (zget s0 (nt_clients n)) as [cl0|] eqn:G; [|apply Quiet; reflexivity]. destruct (send_track _ m0) as [c' r]. cbn [fst snd].
    set (cl1 := mkClient c' _ _). assert (Dn : forall s, down s (mkNet (zset s0 cl1 (nt_clients n)) (nt_broker n) (nt_dealer n)) = down s n).
    { intros s. unfold down. cbn [nt_clients]. rewrite zget_zset. destruct (Z.eqb_spec s s0) as [->|]; [rewrite G; reflexivity|reflexivity]. }
    constructor; auto; cbn [nt_clients nt_broker nt_dealer].
    + apply (NoDup_dset _ Zeqb_ok). exact Hnd.
    + intros s cl m. rewrite zget_zset. destruct (Z.eqb_spec s s0) as [->|]; [|apply Upq]. intros [= <-]. unfold cl1. cbn [cl_up].
      destruct r; [|apply (Upq s0 cl0 m G)]. intros Hin. apply in_app_or in Hin. destruct Hin as [Hin|[<-|[]]]; [exact (Upq s0 cl0 m G Hin)|]. left. apply in_or_app. right. left. reflexivity.
    + intros s. rewrite Dn. apply Hp.
    + intros H s. rewrite Dn. apply Hi, NC, H.
  - destruct (zget s0 (nt_clients n)) as [[c [|u U] D]|] eqn:G; try (apply Quiet; reflexivity).
    destruct (route (nt_broker n) (nt_dealer n) s0 u) as [[b' d'] posts] eqn:R. cbn [fst snd]. cbn [is_route] in Len.
    destruct (route_marks _ _ hb hd _ _ _ _ _ Jb ltac:(lia) Jd ltac:(lia) R) as (M1 & M2 & M3).
    assert (Dn : forall s, down s (mkNet (post posts (zset s0 (mkClient c U D) (nt_clients n))) b' d') = down s n ++ mail posts s \/
                           down s (mkNet (post posts (zset s0 (mkClient c U D) (nt_clients n))) b' d') = down s n).
    { intros s. unfold down. cbn [nt_clients]. rewrite zget_post, zget_zset. destruct (Z.eqb_spec s s0) as [->|]; [rewrite G; left; reflexivity|].
      destruct (zget s (nt_clients n)); auto. }
    assert (RI : (exists h, BInv b' h /\ ids_issued h <= routings (acts ++ [ARoute s0])) /\ (exists h, DInv d' h /\ d_ids_issued h <= routings (acts ++ [ARoute s0]))).
    { destruct (route_effect everyone PubSub _ _ hb hd s0 u b' d' posts Jb Jd ltac:(lia) ltac:(lia) ltac:(discriminate) R) as ((h1 & X1 & X2) & (h2 & Y1 & Y2) & _).
      split; [exists h1|exists h2]; (split; [assumption|lia]). }
    destruct RI as [RB RD]. constructor; cbn [nt_clients nt_broker nt_dealer]; auto.
    + rewrite keys_post. apply (NoDup_dset _ Zeqb_ok). exact Hnd.
    + intros s cl m. rewrite zget_post, zget_zset. destruct (Z.eqb_spec s s0) as [->|].
      * intros [= <-] Hin. apply (Upq s0 _ m G). right. exact Hin.
      * destruct (zget s (nt_clients n)) as [cl'|] eqn:G'; [|discriminate]. intros [= <-] Hin. exact (Upq s cl' m G' Hin).
    + intros s. cbn [inbox flat_map app]. destruct (Dn s) as [->|E]; [|rewrite E; exact (good_up _ _ _ M1 (Hp s))].
      destruct (M3 s) as [M _]. destruct (Hp s) as [N F]. pose proof (NoDup_marks _ _ _ _ N F M1 M) as X. revert X. apply good_perm.
      rewrite !publications_app. rewrite !app_assoc. apply Permutation_app_tail. apply Permutation_app_comm.
    + intros H s. cbn [inbox flat_map app]. destruct (Dn s) as [->|E]; [|rewrite E; exact (good_up _ _ _ M2 (Hi (NC H) s))].
      destruct (M3 s) as [_ M]. destruct (Hi (NC H) s) as [N F].
      assert (M' : fresh_marks (invocation_ids (mail posts s)) (d_idgen (nt_dealer n)) (d_idgen d')).
      { apply M. intros c0 ->. apply (H s0). apply (Upq s0 _ _ G). left. reflexivity. }
      pose proof (NoDup_marks _ _ _ _ N F M2 M') as X. revert X. apply good_perm.
      rewrite !invocation_ids_app. rewrite !app_assoc. apply Permutation_app_tail. apply Permutation_app_comm.
  - destruct (zget s0 (nt_clients n)) as [[c U [|u D]]|] eqn:G; try (apply Quiet; reflexivity). destruct (receive_message c u) as [c' r]. cbn [fst snd].
    constructor; auto; cbn [nt_clients nt_broker nt_dealer].
    + apply (NoDup_dset _ Zeqb_ok). exact Hnd.
    + intros s cl m. rewrite zget_zset. destruct (Z.eqb_spec s s0) as [->|]; [|apply Upq]. intros [= <-]. exact (Upq s0 _ m G).
    + intros s. specialize (Hp s). revert Hp. apply good_perm. unfold down. cbn [nt_clients inbox flat_map]. fold (inbox s t). rewrite zget_zset. destruct (Z.eqb_spec s s0) as [->|Hne].
      * rewrite G, Z.eqb_refl. cbn [cl_down]. rewrite !publications_app. cbn [app]. change (u :: D) with ([u] ++ D). rewrite publications_app.
        rewrite !app_assoc. apply Permutation_app_tail. apply Permutation_app_comm.
      * destruct (Z.eqb_spec s0 s); [congruence|]. apply Permutation_refl.
    + intros H s. specialize (Hi (NC H) s). revert Hi. apply good_perm. unfold down. cbn [nt_clients inbox flat_map]. fold (inbox s t). rewrite zget_zset. destruct (Z.eqb_spec s s0) as [->|Hne].
      * rewrite G, Z.eqb_refl. cbn [cl_down]. rewrite !invocation_ids_app. cbn [app]. change (u :: D) with ([u] ++ D). rewrite invocation_ids_app.
        rewrite !app_assoc. apply Permutation_app_tail. apply Permutation_app_comm.
      * destruct (Z.eqb_spec s0 s); [congruence|]. apply Permutation_refl.
  - destruct (zget s0 (nt_clients n)) as [cl0|] eqn:G; [|apply Quiet; reflexivity]. cbn [fst snd].
    set (cl1 := mkClient _ _ _). assert (Dn : forall s, down s (mkNet (zset s0 cl1 (nt_clients n)) (nt_broker n) (nt_dealer n)) = down s n).
    { intros s. unfold down. cbn [nt_clients]. rewrite zget_zset. destruct (Z.eqb_spec s s0) as [->|]; [rewrite G; reflexivity|reflexivity]. }
    constructor; auto; cbn [nt_clients nt_broker nt_dealer].
    + apply (NoDup_dset _ Zeqb_ok). exact Hnd.
    + intros s cl m. rewrite zget_zset. destruct (Z.eqb_spec s s0) as [->|]; [|apply Upq]. intros [= <-]. unfold cl1. cbn [cl_up].
      intros Hin. apply in_app_or in Hin. destruct Hin as [Hin|[<-|[]]]; [exact (Upq s0 cl0 m G Hin)|]. right. apply in_or_app. right. left. reflexivity.
    + intros s. rewrite Dn. apply Hp.
    + intros H s. rewrite Dn. apply Hi, NC, H.
Qed.

Lemma OInv_run acts : routings acts <= ID_MAX -> OInv acts (fst (nrun acts)) (snd (nrun acts)).
Proof.
  induction acts as [|a acts IH] using rev_ind; intros L.
  - constructor; cbn; try discriminate; try tauto.
    + exists []. split; [exact (brun_inv [])|reflexivity].
    + exists []. split; [exact DInv_init|reflexivity].
    + constructor.
    + intros s. split; constructor.
    + intros _ s. split; constructor.
  - pose proof (routings_mono acts a). rewrite nrun_snoc. unfold nstep_h. pose proof (OInv_step acts (fst (nrun acts)) (snd (nrun acts)) a (IH ltac:(lia)) L) as H0.
    destruct (nstep (fst (nrun acts)) a). exact H0.
Qed.

Theorem events_once acts s : routings acts <= ID_MAX -> NoDup (publications (inbox s (snd (nrun acts)))).
Proof. intros L. destruct (oi_p _ _ _ (OInv_run acts L) s) as [N _]. rewrite publications_app in N. exact (NoDup_app_r _ _ N). Qed.
Theorem invocations_once acts s : routings acts <= ID_MAX -> no_chunks acts -> NoDup (invocation_ids (inbox s (snd (nrun acts)))).
Proof. intros L H. destruct (oi_i _ _ _ (OInv_run acts L) H s) as [N _]. rewrite invocation_ids_app in N. exact (NoDup_app_r _ _ N). Qed.
