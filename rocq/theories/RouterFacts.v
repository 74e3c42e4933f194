(** * RouterFacts: broker and dealer do what the reference router does. *)
From Coq Require Import String Ascii List ZArith Bool Lia Arith.
From Verif Require Import PyBase Messages IdGen IdGenFacts Joiner DictFacts SpecHistory Broker SpecBroker BrokerRun BrokerFacts
  Dealer SpecDealer DealerRun DealerFacts SpecRouter.
Import ListNotations.
Local Open Scope string_scope.
Local Open Scope Z_scope.
Local Open Scope list_scope.

(** ** Tables *)
Lemma among_in s l : among s l = true <-> In s l. Proof. exact (smem_In s l). Qed.
Lemma among_app s l x : among s (l ++ [x]) = (s =? x) || among s l.
Proof. unfold among. rewrite existsb_app. cbn. rewrite orb_false_r. apply orb_comm. Qed.
Lemma among_without s x l : among s (without x l) = negb (s =? x) && among s l.
Proof.
  unfold among, without. induction l as [|y l IH]; cbn; [rewrite andb_false_r; reflexivity|]. destruct (Z.eqb_spec y x) as [->|H]; cbn.
  - rewrite IH. destruct (s =? x); reflexivity.
  - rewrite IH. destruct (Z.eqb_spec s y) as [->|]; [|reflexivity]. apply Z.eqb_neq in H. rewrite H. reflexivity.
Qed.
Lemma in_tget {V} t (v : V) l : NoDup (map fst l) -> In (t, v) l -> tget t l = Some v.
Proof. intros N I. exact (In_dget _ Seqb_ok t v l N I). Qed.
Lemma tget_none_in {V} t (l : list (string * V)) : tget t l = None <-> ~ In t (map fst l).
Proof.
  induction l as [|[u v] l IH]; cbn; [tauto|]. unfold tget in *. cbn. destruct (String.eqb_spec t u) as [->|H]; [split; [discriminate|tauto]|].
  rewrite IH. split; [intros A [B|B]; [congruence|tauto]|tauto].
Qed.
Lemma tget_in {V} t (v : V) l : tget t l = Some v -> In (t, v) l. Proof. exact (dget_In _ Seqb_ok t v l). Qed.
Lemma nodup_filter_map {V W} (f : string * V -> string * W) p l : (forall e, fst (f e) = fst e) -> NoDup (map fst l) -> NoDup (map fst (filter p (map f l))).
Proof.
  intros F. induction l as [|e l IH]; cbn; [auto|]. rewrite NoDup_cons_iff. intros [A B]. specialize (IH B). destruct (p (f e)); [|exact IH]. cbn. rewrite F.
  constructor; [|exact IH]. intros C. apply A. clear -C F. induction l as [|x l IHl]; [exact C|]. cbn in *. destruct (p (f x)); [|tauto]. cbn in C. rewrite F in C. tauto.
Qed.
Lemma tget_filter_map {V W} (f : string * V -> string * W) p l t : (forall e, fst (f e) = fst e) -> NoDup (map fst l) ->
  tget t (filter p (map f l)) = match tget t l with Some v => if p (f (t, v)) then Some (snd (f (t, v))) else None | None => None end.
Proof.
  intros F N. induction l as [|[u v] l IH]; [reflexivity|]. cbn [map filter]. cbn [map fst] in N. apply NoDup_cons_iff in N. destruct N as [A B]. specialize (IH B).
  unfold tget at 2. cbn [dget]. fold (@tget V). pose proof (F (u, v)) as Fu. cbn in Fu. destruct (String.eqb_spec t u) as [->|H].
  - assert (Q : tget u l = None) by (apply tget_none_in; exact A). rewrite Q in IH. destruct (p (f (u, v))); [|exact IH]. destruct (f (u, v)) as [u' w]. cbn in *. subst u'.
    unfold tget. cbn. rewrite String.eqb_refl. reflexivity.
  - destruct (p (f (u, v))); [|exact IH]. destruct (f (u, v)) as [u' w]. cbn in Fu. subst u'. unfold tget at 1. cbn. destruct (String.eqb_spec t u); [congruence|exact IH].
Qed.
Lemma tget_resub f ts t : NoDup (map fst ts) ->
  tget t (resubscribe f ts) = match tget t ts with Some (i, ss) => match f i ss with [] => None | _ => Some (i, f i ss) end | None => None end.
Proof.
  intros N. unfold resubscribe. rewrite tget_filter_map; [|reflexivity|exact N]. destruct (tget t ts) as [[i ss]|]; [|reflexivity]. cbn. destruct (f i ss); reflexivity.
Qed.
Lemma nodup_resub f ts : NoDup (map fst ts) -> NoDup (map fst (resubscribe f ts)).
Proof. apply nodup_filter_map. reflexivity. Qed.
Lemma nodup_tset {V} t (v : V) l : NoDup (map fst l) -> NoDup (map fst (tset t v l)).
Proof. apply (NoDup_dset _ Seqb_ok). Qed.

(** ** Broker *)
Record RB (h : bhistory) (r : rbroker) : Prop := {
  r_members : forall s, among s (rb_members r) = member s h;
  r_topics : forall t, match tget t (rb_topics r) with
                       | Some (i, ss) => ss = subscribers t h /\ ss <> [] /\ forall s, In s ss -> subscribed_as s t h = Some i
                       | None => subscribers t h = [] end;
  r_nodup : NoDup (map fst (rb_topics r));
  r_used : rb_used r = ids_issued h }.

Lemma not_sub s t h : ~ In s (subscribers t h) -> subscribed_as s t h = None.
Proof. intros H. destruct (subscribed_as s t h) eqn:E; [|reflexivity]. destruct H. apply in_subscribers. eauto. Qed.
Lemma topic_of h r s t i : RB h r -> subscribed_as s t h = Some i -> exists ss, tget t (rb_topics r) = Some (i, ss) /\ In s ss.
Proof.
  intros R H. assert (I : In s (subscribers t h)) by (apply in_subscribers; eauto). pose proof (r_topics _ _ R t) as T.
  destruct (tget t (rb_topics r)) as [[j ss]|]; [|rewrite T in I; destruct I]. destruct T as (-> & _ & A). pose proof (A s I). exists (subscribers t h). split; [congruence|exact I].
Qed.
Lemma RB_quiet h r o x : RB h r -> subscribes (o, x) = None -> unsubscribes (o, x) = None -> is_left (o, x) = None -> (forall s, joins s (o, x) = false) ->
  takes_id (o, x) h = false -> RB ((o, x) :: h) r.
Proof.
  intros [A B C D] E1 E2 E3 E4 E5. split; [| |exact C|].
  - intros s. rewrite A. unfold member. cbn [since]. rewrite E4. unfold leaves. rewrite E3. reflexivity.
  - intros t. specialize (B t). destruct (tget t (rb_topics r)) as [[i ss]|].
    + destruct B as (-> & N & S). cbn [subscribers]. rewrite E1, E2, E3. split; [reflexivity|]. split; [exact N|]. intros s I. cbn [subscribed_as]. rewrite E1, E2. unfold leaves. rewrite E3. apply S, I.
    + cbn [subscribers]. rewrite E1, E2, E3. exact B.
  - cbn [ids_issued]. rewrite E5, D. lia.
Qed.
Lemma without_nil s l : without s l = [] -> forall x, In x l -> x = s.
Proof.
  unfold without. intros H x I. destruct (Z.eqb_spec x s) as [E|E]; [exact E|]. assert (Q : In x (filter (fun y => negb (y =? s)) l)) by (apply filter_In; split; [exact I|apply Z.eqb_neq in E; rewrite E; reflexivity]).
  rewrite H in Q. destruct Q.
Qed.
Lemma wants_default o d : truthy (sget_default o (VBool false) d) = wants o d. Proof. exact (opt_wants o d). Qed.

Lemma lookup_topic b h r t : Track b h -> Shape b -> RB h r ->
  match tget t (b_by_topic b) with
  | Some l => exists sub, at_ b l = Some sub /\ tget t (rb_topics r) = Some (sub_id sub, names sub)
  | None => tget t (rb_topics r) = None end.
Proof.
  intros T W R. pose proof (tr_subs _ _ T t) as S. pose proof (r_topics _ _ R t) as Q. unfold subs_of, lookup in S. destruct (tget t (b_by_topic b)) as [l|] eqn:G.
  - destruct (sh_topic _ W _ _ G) as (sub & A & B & C). rewrite A in S. exists sub. split; [exact A|]. destruct (names sub) as [|s ns] eqn:N; [congruence|].
    pose proof (tr_id _ _ T s t) as I. unfold id_of, lookup in I. rewrite G, A, N in I. unfold smem in I. cbn [existsb] in I. rewrite Z.eqb_refl in I. cbn [orb] in I.
    destruct (tget t (rb_topics r)) as [[i ss]|]; [|congruence]. destruct Q as (-> & _ & Q). rewrite <- S. rewrite (Q s) in I by (rewrite <- S; left; reflexivity). congruence.
  - destruct (tget t (rb_topics r)) as [[i ss]|]; [|reflexivity]. destruct Q as (-> & Q & _). congruence.
Qed.

Lemma rb_step_ok b h r o : BInv b h -> RB h r -> ids_issued ((o, snd (bstep b o)) :: h) <= ID_MAX -> ids_issued h < ID_MAX ->
  b_agrees (snd (rb_step r o)) (snd (bstep b o)) /\ RB ((o, snd (bstep b o)) :: h) (fst (rb_step r o)).
Proof.
  intros (I & M & T) R Hmax Hlt. pose proof (bstep_outcome b o I) as O. destruct I as (W & OW & SE).
  assert (T' : Track b h) by (apply T; pose proof (ids_issued_cons (o, snd (bstep b o)) h); lia). clear T. rename T' into T.
  assert (MB : forall s, among s (rb_members r) = match zget s (b_by_session b) with Some _ => true | None => false end).
  { intros s. rewrite (r_members _ _ R), <- M. apply zmem_zget. }
  pose proof (tr_gen _ _ T) as G. rewrite <- (r_used _ _ R) in G. assert (NX : next_id (b_idgen b) = (rb_used r + 1, rb_used r + 1)).
  { rewrite <- G. apply next_id_fresh. rewrite (tr_gen _ _ T). exact Hlt. }
  pose proof (fun t => lookup_topic b h r t T W R) as LT. pose proof (r_members _ _ R) as RM. pose proof (r_topics _ _ R) as RT. pose proof (r_nodup _ _ R) as RN. pose proof (r_used _ _ R) as RU.
  destruct (bstep b o) as [b' out]. cbn [fst snd] in *. destruct r as [ms ts n]. cbn [rb_members rb_topics rb_used] in *. unfold rb_step.
  destruct O.
  - (* join *) cbv zeta. rewrite MB, H. cbn [fst snd b_agrees]. split; [reflexivity|]. split; cbn [rb_members rb_topics rb_used]; [| |exact RN|].
    + intros s. rewrite among_app, RM. unfold member. cbn [since joins leaves is_left]. rewrite (Z.eqb_sym s). destruct (_ =? s); reflexivity.
    + exact RT.
    + cbn [ids_issued takes_id subscribes]. lia.
  - cbv zeta. rewrite MB. rewrite zmem_zget in H. rewrite H. cbn [fst snd b_agrees]. split; [eauto|]. apply RB_quiet; auto.
  - (* leave *) rewrite MB, H. cbn [fst snd b_agrees]. split; [reflexivity|]. split; cbn [rb_members rb_topics rb_used]; [| |apply nodup_resub, RN|].
    + intros x. rewrite among_without, RM. unfold member. cbn [since joins]. unfold leaves. cbn [is_left]. rewrite (Z.eqb_sym s). destruct (x =? s); reflexivity.
    + intros t. rewrite tget_resub by exact RN. specialize (RT t). cbn [subscribers subscribes unsubscribes is_left].
      destruct (tget t ts) as [[i ss]|]; [|rewrite RT; reflexivity]. destruct RT as (-> & A & B). destruct (without s (subscribers t h)) as [|y l] eqn:E; [reflexivity|].
      split; [reflexivity|]. split; [discriminate|]. intros x Hx. rewrite <- E in Hx. apply In_without in Hx. destruct Hx as [Hx Hs]. cbn [subscribed_as subscribes unsubscribes]. unfold leaves. cbn [is_left].
      destruct (Z.eqb_spec s x); [congruence|]. apply B, Hx.
    + cbn [ids_issued takes_id subscribes]. lia.
  - rewrite MB, H. cbn [fst snd b_agrees]. split; [eauto|]. apply RB_quiet; auto.
  - cbv zeta. rewrite MB, H. cbn [fst snd b_agrees]. split; [eauto|]. apply RB_quiet; auto.
  - (* new topic *) rewrite NX in H1. injection H1 as <- <-. specialize (LT (su_topic m)). rewrite H0 in LT. cbv zeta. rewrite MB, H, LT. cbn [fst snd b_agrees]. split; [reflexivity|].
    pose proof (RT (su_topic m)) as RT0. rewrite LT in RT0.
    split; cbn [rb_members rb_topics rb_used]; [| |apply nodup_tset, RN|].
    + intros x. rewrite RM. reflexivity.
    + intros t. rewrite tget_tset. cbn [subscribers subscribed_as subscribes sd_subscription pyint_Z]. rewrite (String.eqb_sym (su_topic m) t). destruct (String.eqb_spec t (su_topic m)) as [->|Ht].
      * rewrite RT0. cbn. split; [reflexivity|]. split; [discriminate|]. intros x [<-|[]]. rewrite Z.eqb_refl. reflexivity.
      * cbn [andb]. specialize (RT t). destruct (tget t ts) as [[i ss]|]; [|exact RT]. destruct RT as (-> & A & B). split; [reflexivity|]. split; [exact A|]. intros x Hx. rewrite andb_false_r. apply B, Hx.
    + cbn [ids_issued takes_id subscribes]. rewrite RT0. lia.
  - (* known topic *) specialize (LT (su_topic m)). rewrite H0 in LT. destruct LT as (sub' & A' & LT). rewrite H1 in A'. injection A' as <-. cbv zeta. rewrite MB, H, LT. cbn [fst snd b_agrees]. split; [reflexivity|].
    pose proof (RT (su_topic m)) as RT0. rewrite LT in RT0. destruct RT0 as (Es & Ne & Al).
    split; cbn [rb_members rb_topics rb_used]; [| |apply nodup_tset, RN|].
    + intros x. rewrite RM. reflexivity.
    + intros t. rewrite tget_tset. cbn [subscribers subscribed_as subscribes sd_subscription pyint_Z]. rewrite (String.eqb_sym (su_topic m) t). destruct (String.eqb_spec t (su_topic m)) as [->|Ht].
      * rewrite <- Es. cbn [andb]. unfold among. destruct (existsb (Z.eqb s) (names sub)) eqn:E; cbn [negb].
        -- split; [reflexivity|]. split; [exact Ne|]. intros x Hx. rewrite andb_true_r. destruct (s =? x); [reflexivity|apply Al, Hx].
        -- split; [reflexivity|]. split; [intros Q; apply app_eq_nil in Q; destruct Q; discriminate|]. intros x Hx. rewrite andb_true_r. apply in_app_iff in Hx. destruct Hx as [Hx|[<-|[]]].
           ++ destruct (s =? x); [reflexivity|apply Al, Hx].
           ++ rewrite Z.eqb_refl. reflexivity.
      * cbn [andb]. specialize (RT t). destruct (tget t ts) as [[i ss]|]; [|exact RT]. destruct RT as (-> & A & B). split; [reflexivity|]. split; [exact A|]. intros x Hx. rewrite andb_false_r. apply B, Hx.
    + cbn [ids_issued takes_id subscribes]. rewrite <- Es. destruct (names sub); [congruence|]. lia.
  - (* refused UNSUBSCRIBE *) cbv zeta. destruct (existsb _ ts) eqn:E.
    + exfalso. apply existsb_exists in E. destruct E as ((t & i & ss) & Hin & E). cbn in E. apply andb_true_iff in E. destruct E as [E1 E2]. apply Z.eqb_eq in E1. subst i. apply among_in in E2.
      pose proof (in_tget _ _ _ RN Hin) as Gt. pose proof (RT t) as Q. rewrite Gt in Q. destruct Q as (-> & _ & Q). specialize (Q s E2). rewrite <- (tr_id _ _ T) in Q. unfold id_of in Q.
      destruct (lookup b t) as [[l sub]|] eqn:L; [|discriminate]. apply (lookup_iff _ _ _ _ W) in L. destruct L as (L1 & L2 & L3). destruct (smem s (names sub)) eqn:Sm; [|discriminate]. injection Q as Q.
      apply smem_In in Sm. destruct (tr_all _ _ T _ _ _ L1 Sm) as (own & O1 & O2). rewrite Q in O2. rewrite (H own O1) in O2. discriminate.
    + cbn [fst snd b_agrees]. split; [eauto|]. apply RB_quiet; auto.
  - (* UNSUBSCRIBE *)
    assert (Ne : names sub <> []) by (intros Q; rewrite Q in H3; destruct H3).
    assert (L : lookup b (sub_topic sub) = Some (l, sub)) by (apply (lookup_iff _ _ _ _ W); auto).
    assert (Q : subscribed_as s (sub_topic sub) h = Some (pyint_Z (us_subscription m))).
    { rewrite <- (tr_id _ _ T). unfold id_of. rewrite L. assert (Sm : smem s (names sub) = true) by (apply smem_In; exact H3). rewrite Sm, H2. reflexivity. }
    destruct (topic_of _ _ _ _ _ R Q) as (ss & Gt & Hs). cbn [rb_topics] in Gt. apply tget_in in Gt. cbv zeta.
    assert (E : existsb (fun e => (fst (snd e) =? pyint_Z (us_subscription m)) && among s (snd (snd e))) ts = true).
    { apply existsb_exists. eexists. split; [exact Gt|]. cbn. rewrite Z.eqb_refl. apply among_in in Hs. exact Hs. }
    rewrite E. cbn [fst snd b_agrees]. split; [reflexivity|]. split; cbn [rb_members rb_topics rb_used]; [| |apply nodup_resub, RN|].
    + intros x. rewrite RM. reflexivity.
    + intros t. rewrite tget_resub by exact RN. specialize (RT t). cbn [subscribers subscribes unsubscribes is_left].
      destruct (tget t ts) as [[i xs]|].
      * destruct RT as (-> & A & B). assert (U : (if i =? pyint_Z (us_subscription m) then without s (subscribers t h) else subscribers t h) =
          match subscribed_as s t h with Some j => if pyint_Z (us_subscription m) =? j then without s (subscribers t h) else subscribers t h | None => subscribers t h end).
        { destruct (subscribed_as s t h) as [j|] eqn:J.
          - assert (Hin : In s (subscribers t h)) by (apply in_subscribers; eauto). rewrite (B s Hin) in J. injection J as ->. rewrite Z.eqb_sym. reflexivity.
          - assert (Hin : ~ In s (subscribers t h)) by (intros Q'; apply in_subscribers in Q'; destruct Q'; congruence). rewrite (without_id _ _ Hin). destruct (_ =? _); reflexivity. }
        rewrite <- U. set (ys := if i =? pyint_Z (us_subscription m) then _ else _) in *. destruct ys as [|y ys'] eqn:Y; [reflexivity|]. split; [reflexivity|]. split; [discriminate|].
        intros x Hx. rewrite <- Y in Hx. subst ys. cbn [subscribed_as subscribes unsubscribes].
        destruct (Z.eqb_spec i (pyint_Z (us_subscription m))) as [Ei|Ei].
        -- apply In_without in Hx. destruct Hx as [Hx Hn]. destruct (Z.eqb_spec s x); [congruence|]. apply B, Hx.
        -- rewrite (B x Hx). destruct (s =? x); [|reflexivity]. destruct (Z.eqb_spec (pyint_Z (us_subscription m)) i); [congruence|reflexivity].
      * rewrite RT. destruct (subscribed_as s t h) as [j|]; [destruct (_ =? _); reflexivity|reflexivity].
    + cbn [ids_issued takes_id subscribes]. lia.
  - destruct m; cbn [fst snd b_agrees]; try (split; [eauto|]; apply RB_quiet; auto); exfalso; [eapply H|eapply H0]; reflexivity.
  - rewrite MB, H. cbn [fst snd b_agrees]. split; [eauto|]. apply RB_quiet; auto.
  - (* publish *) rewrite NX in H0. injection H0 as <- <-. rewrite MB, H. cbn [fst snd b_agrees]. specialize (LT (pb_topic m)). split.
    + rewrite wants_default. destruct (tget (pb_topic m) (b_by_topic b)) as [l|]; [destruct LT as (sub & A & LT); rewrite A, LT|rewrite LT]; reflexivity.
    + split; cbn [rb_members rb_topics rb_used]; [exact RM|exact RT|exact RN|]. cbn [ids_issued takes_id]. lia.
Qed.

Lemma ids_issued_length h : ids_issued h <= Z.of_nat (length h).
Proof. induction h as [|e h IH]; [reflexivity|]. cbn [ids_issued length]. destruct (takes_id e h); lia. Qed.
Lemma brun_length ops : length (snd (brun ops)) = length ops.
Proof. induction ops as [|o ops IH] using rev_ind; [reflexivity|]. rewrite brun_snoc, app_length. cbn. lia. Qed.
Lemma rb_run_snoc ops o : rb_run (ops ++ [o]) = fst (rb_step (rb_run ops) o).
Proof. unfold rb_run. rewrite fold_left_app. reflexivity. Qed.
Lemma rb_run_ok ops : Z.of_nat (length ops) <= ID_MAX -> RB (snd (brun ops)) (rb_run ops).
Proof.
  induction ops as [|o ops IH] using rev_ind; intros H; [split; cbn; try reflexivity; constructor|]. rewrite app_length in H. cbn [length] in H.
  rewrite brun_snoc, rb_run_snoc. cbn [snd]. pose proof (ids_issued_length (snd (brun ops))). rewrite brun_length in *.
  pose proof (ids_issued_length ((o, snd (bstep (fst (brun ops)) o)) :: snd (brun ops))). cbn [length] in *. rewrite brun_length in *.
  eapply rb_step_ok; [apply brun_inv|apply IH; lia|lia|lia].
Qed.
Lemma broker_reference ops o : Z.of_nat (length ops) < 2 ^ 53 ->
  b_agrees (snd (rb_step (rb_run ops) o)) (banswer (fst (brun ops)) o).
Proof.
  intros H. change (2 ^ 53) with ID_MAX in H. pose proof (ids_issued_length (snd (brun ops))). pose proof (ids_issued_length ((o, snd (bstep (fst (brun ops)) o)) :: snd (brun ops))).
  cbn [length] in *. rewrite brun_length in *. unfold banswer. eapply rb_step_ok; [apply brun_inv|apply rb_run_ok; lia|lia|lia].
Qed.
Lemma broker_reference_topics ops t : Z.of_nat (length ops) <= 2 ^ 53 -> has_subscription (fst (brun ops)) t = tmem t (rb_topics (rb_run ops)).
Proof.
  intros H. change (2 ^ 53) with ID_MAX in H. pose proof (ids_issued_length (snd (brun ops))). rewrite brun_length in *. pose proof (brun_inv ops) as ((W & _ & _) & _ & T). specialize (T ltac:(lia)).
  pose proof (lookup_topic _ _ _ t T W (rb_run_ok ops H)) as L. unfold has_subscription, tmem, dmem. unfold tget in L. destruct (dget String.eqb t (b_by_topic _)).
  - destruct L as (sub & _ & L). rewrite L. reflexivity.
  - rewrite L. reflexivity.
Qed.

(** ** Dealer *)
Record RD (h : dhistory) (r : rdealer) : Prop := {
  q_members : forall s, among s (rd_members r) = d_member s h;
  q_procs : forall p, tget p (rd_procedures r) = holder p h;
  q_nodup : NoDup (map fst (rd_procedures r));
  q_waiting : forall i, zget i (rd_waiting r) = unanswered i h;
  q_nodup_w : NoDup (map fst (rd_waiting r));
  q_open : forall s x, zzget (s, x) (rd_open r) = open_call s x h;
  q_nodup_o : NoDup (map fst (rd_open r));
  q_used : rd_used r = d_ids_issued h }.

Lemma RD_quiet h r o x : RD h r -> (forall s, d_joins s (o, x) = false) -> d_left (o, x) = None -> registers (o, x) = None -> unregisters (o, x) = None ->
  invokes (o, x) = None -> results (o, x) = None -> fails (o, x) = None -> crashes (o, x) = None -> RD ((o, x) :: h) r.
Proof.
  intros [A B C D E F G H] E1 E2 E3 E4 E5 E6 E7 E8. split; auto.
  - intros s. rewrite A. unfold d_member. cbn [since]. rewrite E1. unfold d_leaves. rewrite E2. reflexivity.
  - intros p. rewrite B. cbn [holder]. rewrite E2, E3, E4. reflexivity.
  - intros i. rewrite D. cbn [unanswered]. rewrite E5, E6, E7, E8. reflexivity.
  - intros s y. rewrite F. cbn [open_call]. rewrite E5, E6. reflexivity.
  - cbn [d_ids_issued]. unfold d_takes_id. rewrite E3, E5, H. lia.
Qed.
Lemma tget_filter {V} (p : string * V -> bool) l t : NoDup (map fst l) -> tget t (filter p l) = match tget t l with Some v => if p (t, v) then Some v else None | None => None end.
Proof. intros N. rewrite <- (map_id l) at 1. rewrite (tget_filter_map (fun e => e)); [reflexivity|reflexivity|exact N]. Qed.
Lemma nodup_filter {V} (p : string * V -> bool) l : NoDup (map fst l) -> NoDup (map fst (filter p l)).
Proof. intros N. rewrite <- (map_id l) at 1. apply (nodup_filter_map (fun e => e)); [reflexivity|exact N]. Qed.

Lemma rd_step_ok d h r o : DInv d h -> RD h r -> d_ids_issued ((o, snd (dstep d o)) :: h) <= ID_MAX -> d_ids_issued h < ID_MAX ->
  d_agrees (snd (rd_step r o)) (snd (dstep d o)) /\ RD ((o, snd (dstep d o)) :: h) (fst (rd_step r o)).
Proof.
  intros (I & M & C & T) R Hmax Hlt. pose proof (dstep_outcome d o I) as O. destruct I as (W & OW & SE).
  assert (T' : DTrack d h) by (apply T; pose proof (d_ids_issued_cons (o, snd (dstep d o)) h); lia). clear T. rename T' into T.
  assert (MB : forall s, among s (rd_members r) = match zget s (d_by_session d) with Some _ => true | None => false end).
  { intros s. rewrite (q_members _ _ R), <- M. apply zmem_zget. }
  pose proof (dt_gen _ _ T) as G. rewrite <- (q_used _ _ R) in G. assert (NX : next_id (d_idgen d) = (rd_used r + 1, rd_used r + 1)).
  { rewrite <- G. apply next_id_fresh. rewrite (dt_gen _ _ T). exact Hlt. }
  assert (HD : forall p, tget p (rd_procedures r) = held d p) by (intros p; rewrite (q_procs _ _ R); symmetry; apply (dt_held _ _ T)).
  assert (PD : forall i, zget i (rd_waiting r) = option_map view (zget i (d_pending d))) by (intros i; rewrite (q_waiting _ _ R); symmetry; apply (dc_pending _ _ C)).
  assert (OD : forall s x, zzget (s, x) (rd_open r) = zzget (s, x) (d_call_ids d)) by (intros s x; rewrite (q_open _ _ R); symmetry; apply (dc_open _ _ C)).
  destruct R as [RM RP RN RW RNW RO RNO RU].
  destruct (dstep d o) as [d' out]. cbn [fst snd] in *. destruct r as [ms ps ws os n]. cbn [rd_members rd_procedures rd_waiting rd_open rd_used] in *.
  assert (R : RD h (mkRD ms ps ws os n)) by (split; assumption).
  unfold rd_step. destruct O.
  - (* join *) cbv zeta. rewrite MB, H. cbn [fst snd d_agrees]. split; [reflexivity|]. split; cbn [rd_members rd_procedures rd_waiting rd_open rd_used]; auto.
    + intros s. rewrite among_app, RM. unfold d_member. cbn [since d_joins d_leaves d_left]. rewrite (Z.eqb_sym s). destruct (_ =? s); reflexivity.
    + cbn [d_ids_issued d_takes_id registers invokes]. lia.
  - cbv zeta. rewrite MB. rewrite zmem_zget in H. rewrite H. cbn [fst snd d_agrees]. split; [eauto|]. apply RD_quiet; auto.
  - (* leave *) rewrite MB, H. cbn [fst snd d_agrees]. split; [reflexivity|]. split; cbn [rd_members rd_procedures rd_waiting rd_open rd_used]; auto.
    + intros x. rewrite among_without, RM. unfold d_member. cbn [since d_joins]. unfold d_leaves. cbn [d_left]. rewrite (Z.eqb_sym s). destruct (x =? s); reflexivity.
    + intros p. rewrite tget_filter by exact RN. rewrite RP. cbn [holder registers unregisters d_left]. destruct (holder p h) as [[s' i']|]; [|reflexivity]. cbn [fst snd]. rewrite (Z.eqb_sym s). destruct (s' =? s); reflexivity.
    + apply nodup_filter, RN.
    + cbn [d_ids_issued d_takes_id registers invokes]. lia.
  - rewrite MB, H. cbn [fst snd d_agrees]. split; [eauto|]. apply RD_quiet; auto.
  - (* no such procedure *) assert (Q : tget (ca_procedure m) ps = None) by (rewrite HD; apply held_none; auto). rewrite Q. cbn [fst snd d_agrees]. split; [reflexivity|]. apply RD_quiet; auto.
  - (* fresh call *) rewrite NX in H4. injection H4 as <- <-.
    assert (Q : tget (ca_procedure m) ps = Some (c, reg_id reg)) by (rewrite HD; unfold held; rewrite H, H0, H2; reflexivity). rewrite Q.
    assert (Q2 : (if wants "progress" (ca_options m) then zzget (s, pyint_Z (ca_request m)) os else None) = None).
    { destruct (wants "progress" (ca_options m)); [|reflexivity]. rewrite OD. apply H3. reflexivity. }
    cbv zeta. rewrite Q2. cbn [fst snd d_agrees]. split.
    { unfold invocation_for, call_details. reflexivity. }
    assert (FR : fresh s m h = true).
    { unfold fresh. destruct (wants "progress" (ca_options m)) eqn:Wp; [|reflexivity]. rewrite <- RO, Q2. reflexivity. }
    split; cbn [rd_members rd_procedures rd_waiting rd_open rd_used]; auto.
    + intros i. rewrite zget_zset. unfold unanswered, invocation_for. cbn [invokes iv_request pyint_Z]. fold unanswered. rewrite FR, andb_true_r, (Z.eqb_sym i). destruct (_ =? i); [reflexivity|apply RW].
    + apply (NoDup_dset _ Zeqb_ok), RNW.
    + intros x y. rewrite zzget_zzset. unfold open_call, invocation_for. cbn [invokes iv_request pyint_Z]. fold open_call. rewrite zz_eqb_andb. destruct (_ && _); [reflexivity|apply RO].
    + apply (NoDup_dset _ zz_eqb_ok), RNO.
    + cbn [d_ids_issued]. unfold d_takes_id, invocation_for. cbn [registers invokes]. rewrite FR. lia.
  - (* further chunk *)
    assert (Q : tget (ca_procedure m) ps = Some (c, reg_id reg)) by (rewrite HD; unfold held; rewrite H, H0, H2; reflexivity). rewrite Q.
    assert (Q2 : (if wants "progress" (ca_options m) then zzget (s, pyint_Z (ca_request m)) os else None) = Some id) by (rewrite H3, OD; exact H4).
    cbv zeta. rewrite Q2. cbn [fst snd d_agrees]. split; [reflexivity|].
    assert (FR : fresh s m h = false) by (unfold fresh; rewrite H3, <- RO, OD, H4; reflexivity).
    split; cbn [rd_members rd_procedures rd_waiting rd_open rd_used]; auto.
    + intros i. unfold unanswered, invocation_for. cbn [invokes iv_request pyint_Z]. fold unanswered. rewrite FR, andb_false_r. apply RW.
    + intros x y. unfold open_call, invocation_for. cbn [invokes iv_request pyint_Z]. fold open_call. rewrite RO. destruct (Z.eqb_spec s x) as [->|]; [|reflexivity]. destruct (Z.eqb_spec (pyint_Z (ca_request m)) y) as [<-|]; [|reflexivity].
      cbn. rewrite <- RO, OD. exact H4.
    + cbn [d_ids_issued]. unfold d_takes_id, invocation_for. cbn [registers invokes]. rewrite FR. lia.
  - (* refused YIELD *) cbv zeta. rewrite PD. destruct (zget (pyint_Z (yi_request m)) (d_pending d)) as [inv|] eqn:Z0; cbn [option_map].
    + assert (E : wt_callee (view inv) =? s = false) by (apply Z.eqb_neq, H; reflexivity). rewrite E. cbn [negb fst snd d_agrees]. split; [eauto|]. apply RD_quiet; auto.
    + cbn [fst snd d_agrees]. split; [eauto|]. apply RD_quiet; auto.
  - (* progress *) cbv zeta. rewrite PD, H. cbn [option_map]. assert (E : wt_callee (view inv) =? s = true) by (apply Z.eqb_eq; exact H0). rewrite E. cbn [negb].
    assert (E2 : wants "progress" (yi_options m) && wt_progressive (view inv) = true) by (unfold wants; rewrite H1, H2; exact H3). rewrite E2, H1. cbn [fst snd d_agrees]. split; [reflexivity|].
    split; cbn [rd_members rd_procedures rd_waiting rd_open rd_used]; auto.
    cbn [d_ids_issued]. unfold d_takes_id. cbn [registers invokes]. lia.
  - (* last answer *) cbv zeta. rewrite PD, H. cbn [option_map]. assert (E : wt_callee (view inv) =? s = true) by (apply Z.eqb_eq; exact H0). rewrite E. cbn [negb].
    change (wt_progressive (view inv)) with (truthy (pi_receive_progress inv)). rewrite H1. change (wt_caller (view inv)) with (pi_caller inv). change (wt_request (view inv)) with (pi_request inv).
    assert (E3 : zzmem (pi_caller inv, pyint_Z (pi_request inv)) os = true) by (rewrite zzmem_zzget in *; rewrite OD; exact H2). rewrite E3. cbn [fst snd d_agrees]. split; [reflexivity|].
    split; cbn [rd_members rd_procedures rd_waiting rd_open rd_used]; auto.
    + intros i. rewrite (zget_zdel _ _ _ RNW). cbn [unanswered invokes results re_details re_dets re_bin with_serializer no_payload sget]. rewrite (Z.eqb_sym i). cbn. destruct (_ =? i); [reflexivity|apply RW].
    + apply NoDup_ddel, RNW.
    + intros x y. rewrite (zzget_zzdel _ _ _ RNO). rewrite zz_eqb_andb. cbn. rewrite RO. reflexivity.
    + apply NoDup_ddel, RNO.
    + cbn [d_ids_issued]. unfold d_takes_id. cbn [registers invokes]. lia.
  - (* crash *) cbv zeta. rewrite PD, H. cbn [option_map]. assert (E : wt_callee (view inv) =? s = true) by (apply Z.eqb_eq; exact H0). rewrite E. cbn [negb].
    change (wt_progressive (view inv)) with (truthy (pi_receive_progress inv)). rewrite H1. change (wt_caller (view inv)) with (pi_caller inv). change (wt_request (view inv)) with (pi_request inv).
    assert (E3 : zzmem (pi_caller inv, pyint_Z (pi_request inv)) os = false) by (rewrite zzmem_zzget in *; rewrite OD; exact H2). rewrite E3. cbn [fst snd d_agrees]. split; [reflexivity|].
    split; cbn [rd_members rd_procedures rd_waiting rd_open rd_used]; auto.
    + intros i. rewrite (zget_zdel _ _ _ RNW). cbn. rewrite (Z.eqb_sym i). destruct (_ =? i); [reflexivity|apply RW].
    + apply NoDup_ddel, RNW.
    + cbn [d_ids_issued]. unfold d_takes_id. cbn [registers invokes]. lia.
  - rewrite MB, H. cbn [fst snd d_agrees]. split; [eauto|]. apply RD_quiet; auto.
  - (* taken *) rewrite MB, H. assert (Q : exists x, tget (rg_procedure m) ps = Some x).
    { rewrite HD. destruct (held d (rg_procedure m)) eqn:E; [eauto|]. apply held_none in E; [congruence|exact W]. }
    destruct Q as (x & Q). rewrite Q. cbn [fst snd d_agrees]. split; [reflexivity|]. apply RD_quiet; auto.
  - (* REGISTER *) rewrite NX in H1. injection H1 as <- <-. assert (Q : tget (rg_procedure m) ps = None) by (rewrite HD; apply held_none; auto). rewrite MB, H, Q. cbn [fst snd d_agrees]. split; [reflexivity|].
    split; cbn [rd_members rd_procedures rd_waiting rd_open rd_used]; auto.
    + intros p. rewrite tget_tset. cbn [holder registers rd_registration pyint_Z]. rewrite (String.eqb_sym p). destruct (String.eqb _ p); [reflexivity|apply RP].
    + apply nodup_tset, RN.
    + cbn [d_ids_issued d_takes_id registers]. lia.
  - (* refused UNREGISTER *) cbv zeta. destruct (existsb _ ps) eqn:E.
    + exfalso. apply existsb_exists in E. destruct E as ((p & s' & i) & Hin & E). cbn in E. apply andb_true_iff in E. destruct E as [E1 E2]. apply Z.eqb_eq in E1, E2. subst s' i.
      pose proof (in_tget _ _ _ RN Hin) as Gp. rewrite HD in Gp. apply (held_iff _ _ _ _ W) in Gp. destruct Gp as (l & reg & A & B & D & E). 
      destruct (dt_all _ _ T s l reg) as (own & O1 & O2); [congruence|congruence|]. specialize (H own O1). congruence.
    + cbn [fst snd d_agrees]. split; [eauto|]. apply RD_quiet; auto.
  - (* UNREGISTER *)
    assert (Ne : reg_registrants reg <> []) by (rewrite H3; discriminate). pose proof (ds_live _ W _ _ H1 Ne) as L.
    assert (Q : tget (reg_procedure reg) ps = Some (s, pyint_Z (ur_registration m))) by (rewrite HD; unfold held; rewrite L, H1, H3, H2; reflexivity). apply tget_in in Q. cbv zeta.
    assert (E : existsb (fun e => (fst (snd e) =? s) && (snd (snd e) =? pyint_Z (ur_registration m))) ps = true).
    { apply existsb_exists. eexists. split; [exact Q|]. cbn. rewrite !Z.eqb_refl. reflexivity. }
    rewrite E. cbn [fst snd d_agrees]. split; [reflexivity|]. split; cbn [rd_members rd_procedures rd_waiting rd_open rd_used]; auto.
    + intros p. rewrite tget_filter by exact RN. rewrite RP. cbn [holder registers unregisters d_left]. destruct (holder p h) as [[s' i']|]; [|reflexivity]. cbn [fst snd].
      rewrite (Z.eqb_sym s'), (Z.eqb_sym i'). destruct (_ && _); reflexivity.
    + apply nodup_filter, RN.
    + cbn [d_ids_issued d_takes_id registers invokes]. lia.
  - (* refused ERROR *) cbv zeta. destruct (Z.eqb_spec (pyint_Z (er_type m)) 68) as [E|E]; [rewrite PD, (H E); cbn [option_map]|]; cbn [fst snd d_agrees]; (split; [eauto|]; apply RD_quiet; auto).
  - (* ERROR *) cbv zeta. rewrite H, Z.eqb_refl, PD, H0. cbn [option_map fst snd d_agrees]. split; [reflexivity|].
    split; cbn [rd_members rd_procedures rd_waiting rd_open rd_used]; auto.
    + intros i. rewrite (zget_zdel _ _ _ RNW). cbn. rewrite (Z.eqb_sym i). destruct (_ =? i); [reflexivity|apply RW].
    + apply NoDup_ddel, RNW.
    + cbn [d_ids_issued]. unfold d_takes_id. cbn [registers invokes]. lia.
  - destruct m; try contradiction; cbn [fst snd d_agrees]; (split; [eauto|]; apply RD_quiet; auto).
Qed.

Lemma d_ids_issued_length h : d_ids_issued h <= Z.of_nat (length h).
Proof. induction h as [|e h IH]; [reflexivity|]. cbn [d_ids_issued length]. destruct (d_takes_id e h); lia. Qed.
Lemma drun_length ops : length (snd (drun ops)) = length ops.
Proof. induction ops as [|o ops IH] using rev_ind; [reflexivity|]. rewrite drun_snoc, app_length. cbn. lia. Qed.
Lemma rd_run_snoc ops o : rd_run (ops ++ [o]) = fst (rd_step (rd_run ops) o).
Proof. unfold rd_run. rewrite fold_left_app. reflexivity. Qed.
Lemma rd_run_ok ops : Z.of_nat (length ops) <= ID_MAX -> RD (snd (drun ops)) (rd_run ops).
Proof.
  induction ops as [|o ops IH] using rev_ind; intros H; [split; cbn; try reflexivity; constructor|]. rewrite app_length in H. cbn [length] in H.
  rewrite drun_snoc, rd_run_snoc. cbn [snd]. pose proof (d_ids_issued_length (snd (drun ops))). rewrite drun_length in *.
  pose proof (d_ids_issued_length ((o, snd (dstep (fst (drun ops)) o)) :: snd (drun ops))). cbn [length] in *. rewrite drun_length in *.
  eapply rd_step_ok; [apply drun_inv|apply IH; lia|lia|lia].
Qed.
Lemma dealer_reference ops o : Z.of_nat (length ops) < 2 ^ 53 ->
  d_agrees (snd (rd_step (rd_run ops) o)) (danswer (fst (drun ops)) o).
Proof.
  intros H. change (2 ^ 53) with ID_MAX in H. pose proof (d_ids_issued_length (snd (drun ops))). pose proof (d_ids_issued_length ((o, snd (dstep (fst (drun ops)) o)) :: snd (drun ops))).
  cbn [length] in *. rewrite drun_length in *. unfold danswer. eapply rd_step_ok; [apply drun_inv|apply rd_run_ok; lia|lia|lia].
Qed.
Lemma dealer_reference_procedures ops p : Z.of_nat (length ops) <= 2 ^ 53 -> has_registration (fst (drun ops)) p = tmem p (rd_procedures (rd_run ops)).
Proof.
  intros H. change (2 ^ 53) with ID_MAX in H. pose proof (d_ids_issued_length (snd (drun ops))). rewrite drun_length in *. pose proof (drun_inv ops) as ((W & _ & _) & _ & _ & T). specialize (T ltac:(lia)).
  unfold has_registration. pose proof (q_procs _ _ (rd_run_ok ops H) p) as Q. rewrite <- (dt_held _ _ T) in Q. pose proof (held_none (fst (drun ops)) p W) as N.
  unfold tmem, dmem. change (dget String.eqb p (rd_procedures (rd_run ops))) with (tget p (rd_procedures (rd_run ops))). change (dget String.eqb p (d_by_procedure (fst (drun ops)))) with (tget p (d_by_procedure (fst (drun ops)))).
  rewrite Q. destruct (held _ p); destruct (tget p (d_by_procedure _)); try reflexivity; exfalso; [destruct N as [_ N]; specialize (N eq_refl)|destruct N as [N _]; specialize (N eq_refl)]; discriminate.
Qed.

(** ** Nothing else is remembered *)
Lemma rb_run_app a b : rb_run (a ++ b) = fold_left (fun r o => fst (rb_step r o)) b (rb_run a).
Proof. unfold rb_run. apply fold_left_app. Qed.
Lemma rd_run_app a b : rd_run (a ++ b) = fold_left (fun r o => fst (rd_step r o)) b (rd_run a).
Proof. unfold rd_run. apply fold_left_app. Qed.
Lemma rb_no_exn r o e : snd (rb_step r o) <> Some (OExn e).
Proof. destruct r as [ms ts n], o as [d|s|s m|s m]; cbn [rb_step]; try destruct m; repeat match goal with |- context [match ?y with _ => _ end] => destruct y end; discriminate. Qed.
Lemma same_b_of w x y : (forall e, w <> Some (OExn e)) -> b_agrees w x -> b_agrees w y -> same_b x y.
Proof.
  destruct w as [r|]; cbn; [intros N -> ->|intros _ [t ->] [u ->]].
  - destruct r; cbn; try reflexivity. destruct (N e). reflexivity.
  - exists t, u. auto.
Qed.
Lemma broker_forgets ops1 ops2 rest o : rb_run ops1 = rb_run ops2 ->
  Z.of_nat (length (ops1 ++ rest)) < 2 ^ 53 -> Z.of_nat (length (ops2 ++ rest)) < 2 ^ 53 ->
  same_b (banswer (fst (brun (ops1 ++ rest))) o) (banswer (fst (brun (ops2 ++ rest))) o).
Proof.
  intros E A B. pose proof (broker_reference _ o A) as P. pose proof (broker_reference _ o B) as Q. rewrite rb_run_app in *. rewrite <- E in Q. eapply same_b_of; [|exact P|exact Q]. intros e. apply rb_no_exn.
Qed.
(** In the reference, subscribers are members and every topic has one. *)
Definition tidy (r : rbroker) : Prop := Forall (fun e => snd (snd e) <> [] /\ forall s, In s (snd (snd e)) -> In s (rb_members r)) (rb_topics r).
Lemma tidy_resub f ms ms' (ts : list (string * (Z * list Z))) : (forall i ss s, In s (f i ss) -> In s ss -> In s ms -> In s ms') -> (forall i ss s, In s (f i ss) -> In s ss) ->
  Forall (fun e => snd (snd e) <> [] /\ forall s : Z, In s (snd (snd e)) -> In s ms) ts ->
  Forall (fun e => snd (snd e) <> [] /\ forall s : Z, In s (snd (snd e)) -> In s ms') (resubscribe f ts).
Proof.
  intros F1 F2 H. unfold resubscribe. rewrite Forall_forall in *. intros [t [i ss]] I. apply filter_In in I. destruct I as [I N]. apply in_map_iff in I. destruct I as ([t' [i' ss']] & E & I). cbn in E. injection E as <- <- <-.
  specialize (H _ I). cbn in *. split; [destruct (f i' ss'); [discriminate|discriminate]|]. intros s K. eapply F1; [exact K|eapply F2; exact K|]. apply H. eapply F2. exact K.
Qed.
Lemma tidy_tset ms t i ss (ts : list (string * (Z * list Z))) : Forall (fun e => snd (snd e) <> [] /\ forall s : Z, In s (snd (snd e)) -> In s ms) ts -> ss <> [] -> (forall s, In s ss -> In s ms) ->
  Forall (fun e => snd (snd e) <> [] /\ forall s : Z, In s (snd (snd e)) -> In s ms) (tset t (i, ss) ts).
Proof. intros H N S. rewrite Forall_forall in *. intros e I. apply (In_dset _ Seqb_ok) in I. destruct I as [->|I]; [cbn; auto|apply H, I]. Qed.
Lemma tidy_step r o : tidy r -> tidy (fst (rb_step r o)).
Proof.
  intros H. unfold tidy in *. destruct r as [ms ts n], o as [d|s|s m|s m]; cbn [rb_step].
  - cbv zeta. destruct (among _ _); [exact H|]. cbn [fst rb_topics rb_members] in *. eapply Forall_impl; [|exact H]. intros e [A B]. split; [exact A|]. intros s I. apply in_app_iff. left. apply B, I.
  - destruct (among _ _); [|exact H]. cbn [fst rb_topics rb_members] in *. eapply tidy_resub; [| |exact H].
    + intros i ss x I _ J. apply In_without. apply In_without in I. split; [exact J|apply I].
    + intros i ss x I. apply In_without in I. apply I.
  - destruct m; try exact H.
    + cbv zeta. destruct (among s ms) eqn:A; [|exact H]. apply among_in in A. cbn [rb_topics rb_members] in H. destruct (tget _ _) as [[i ss]|] eqn:E; cbn [fst rb_topics rb_members].
      * apply tget_in in E. rewrite Forall_forall in H. pose proof (H _ E) as [N S]. cbn in N, S. apply tidy_tset; [apply Forall_forall, H| |].
        -- destruct (among s ss); [exact N|]. intros Q. apply app_eq_nil in Q. destruct Q. discriminate.
        -- intros x I. destruct (among s ss); [apply S, I|]. apply in_app_iff in I. destruct I as [I|[<-|[]]]; [apply S, I|exact A].
      * apply tidy_tset; [exact H|discriminate|]. intros x [<-|[]]. exact A.
    + cbv zeta. destruct (existsb _ _); [|exact H]. cbn [fst rb_topics rb_members] in *. eapply tidy_resub; [| |exact H].
      * intros i ss x _ _ J. exact J.
      * intros i ss x I. destruct (i =? _); [apply In_without in I; apply I|exact I].
  - destruct (among _ _); exact H.
Qed.
Lemma tidy_run ops : tidy (rb_run ops).
Proof. induction ops as [|o ops IH] using rev_ind; [constructor|]. rewrite rb_run_snoc. apply tidy_step, IH. Qed.
Lemma rb_empty ops : Z.of_nat (length ops) <= 2 ^ 53 -> (forall s, member s (snd (brun ops)) = false) -> rb_run ops = mkRB [] [] (ids_issued (snd (brun ops))).
Proof.
  intros L H. pose proof (rb_run_ok ops L) as [RM _ _ RU]. pose proof (tidy_run ops) as T. unfold tidy in T. destruct (rb_run ops) as [ms ts n]. cbn [rb_members rb_topics rb_used] in *.
  assert (M : ms = []). { destruct ms as [|s ms]; [reflexivity|]. specialize (RM s). rewrite H in RM. cbn in RM. rewrite Z.eqb_refl in RM. discriminate. }
  subst ms. f_equal; [|exact RU]. destruct ts as [|[t [i ss]] ts]; [reflexivity|]. inversion T as [|x y [N S]]; subst. cbn in N, S. destruct ss as [|s ss]; [congruence|]. destruct (S s (or_introl eq_refl)).
Qed.
Lemma broker_as_new ops1 ops2 rest o : (forall s, member s (snd (brun ops1)) = false) -> (forall s, member s (snd (brun ops2)) = false) ->
  ids_issued (snd (brun ops1)) = ids_issued (snd (brun ops2)) ->
  Z.of_nat (length (ops1 ++ rest)) < 2 ^ 53 -> Z.of_nat (length (ops2 ++ rest)) < 2 ^ 53 ->
  same_b (banswer (fst (brun (ops1 ++ rest))) o) (banswer (fst (brun (ops2 ++ rest))) o).
Proof.
  intros A B E L1 L2. apply broker_forgets; [|exact L1|exact L2]. rewrite app_length in *. rewrite !rb_empty; [congruence|lia|exact B|lia|exact A].
Qed.
Lemma dealer_forgets ops1 ops2 rest o : rd_run ops1 = rd_run ops2 ->
  Z.of_nat (length (ops1 ++ rest)) < 2 ^ 53 -> Z.of_nat (length (ops2 ++ rest)) < 2 ^ 53 ->
  same_d (danswer (fst (drun (ops1 ++ rest))) o) (danswer (fst (drun (ops2 ++ rest))) o).
Proof.
  intros E A B. pose proof (dealer_reference _ o A) as P. pose proof (dealer_reference _ o B) as Q. rewrite rd_run_app in *. rewrite <- E in Q.
  destruct (snd (rd_step _ o)) as [r|]; cbn in P, Q; [rewrite P, Q; destruct r; cbn; auto|]. destruct P as [t ->], Q as [u ->]. cbn. right. exists t, u. auto.
Qed.
