(** * NetworkFlow: links drain in order; what a client holds, the router knows. *)
From Coq Require Import String Ascii List ZArith Bool Lia.
From Verif Require Import PyBase Messages IdGen DictFacts SpecHistory Session SpecSession SessionRun SessionFacts Joiner.
From Verif Require Import Broker SpecBroker BrokerRun BrokerFacts Dealer SpecDealer DealerRun DealerFacts Network SpecNetwork NetworkFacts NetworkInv NetworkLive.
Import ListNotations.
Local Open Scope string_scope.
Local Open Scope Z_scope.
Local Open Scope list_scope.

(** ** Prefixes of an execution *)
Definition at_end (acts : list action) : net := fst (nrun acts).
Lemma at_end_snoc acts a : at_end (acts ++ [a]) = fst (nstep (at_end acts) a).
Proof. unfold at_end. rewrite nrun_snoc. unfold nstep_h. destruct (nstep _ a). reflexivity. Qed.
Lemma in_trace pre a post : In (a, snd (nstep (at_end pre) a)) (snd (nrun (pre ++ a :: post))).
Proof.
  induction post as [|x post IH] using rev_ind.
  - rewrite nrun_snoc. unfold nstep_h, at_end. destruct (nstep _ a). left. reflexivity.
  - change (pre ++ a :: post ++ [x]) with (pre ++ (a :: post) ++ [x]). rewrite app_assoc, nrun_snoc. unfold nstep_h.
    destruct (nstep _ x). right. exact IH.
Qed.
Section Disciplined.
Variable Gd : Z -> Prop.
Local Notation NInv := (NInv Gd).
Local Notation allowed := (allowed Gd).

Lemma allowed_app hf a1 a2 : allowed hf (a1 ++ a2) -> allowed hf a1.
Proof.
  induction a2 as [|x a2 IH] using rev_ind; [rewrite app_nil_r; auto|]. rewrite app_assoc. intros A. apply IH. exact (allowed_prefix _ _ _ _ A).
Qed.

(** ** One step, seen from a client that stays *)
Definition posts_of (n : net) (s0 : Z) : list routed :=
  match zget s0 (nt_clients n) with
  | Some (mkClient _ (m :: _) _) => snd (route (nt_broker n) (nt_dealer n) s0 m)
  | _ => []
  end.
Definition client_step (n : net) (s : Z) (cl : client) (a : action) : client :=
  match a with
  | ASend s0 m => if s0 =? s then
      mkClient (fst (send_track (cl_session cl) m))
        (match snd (send_track (cl_session cl) m) with Ok _ => cl_up cl ++ [m] | Raise _ => cl_up cl end) (cl_down cl)
      else cl
  | ADeliver s0 => if s0 =? s then
      match cl_down cl with m :: D => mkClient (fst (receive_message (cl_session cl) m)) (cl_up cl) D | [] => cl end else cl
  | ARoute s0 => mkClient (cl_session cl) (if s0 =? s then tl (cl_up cl) else cl_up cl) (cl_down cl ++ mail (posts_of n s0) s)
  | APut s0 m => if s0 =? s then mkClient (cl_session cl) (cl_up cl ++ [m]) (cl_down cl) else cl
  | _ => cl
  end.

Lemma join_taken hf acts n det s cl : NInv hf acts n -> zget s (nt_clients n) = Some cl -> pyint_Z (det_session det) = s ->
  fst (nstep n (AJoin det)) = n.
Proof.
  intros J G E. cbn [nstep]. assert (M : zmem s (b_by_session (nt_broker n)) = true) by (rewrite (ni_sync_b _ _ _ _ J), zmem_zget, G; reflexivity).
  unfold b_add_session. rewrite E, M. destruct (d_add_session _ _). reflexivity.
Qed.

Lemma client_stays hf acts n a s cl : NInv hf acts n -> zget s (nt_clients n) = Some cl -> a <> ALeave s ->
  zget s (nt_clients (fst (nstep n a))) = Some (client_step n s cl a).
Proof.
  intros J G Ha. destruct a as [det|s0|s0 m|s0|s0|s0 m]; cbn [client_step].
  - destruct (Z.eq_dec (pyint_Z (det_session det)) s) as [E|E]; [rewrite (join_taken hf acts n det s cl J G E); exact G|]. cbn [nstep].
    destruct (b_add_session _ _) as [b' rb], (d_add_session _ _) as [d' rd]. destruct rb; [|exact G]. destruct rd; [|exact G].
    cbn [fst nt_clients]. rewrite zget_zset. destruct (Z.eqb_spec s (pyint_Z (det_session det))); [congruence|exact G].
  - cbn [nstep]. destruct (b_remove_session _ _) as [b' rb], (d_remove_session _ _) as [d' rd]. destruct rb; [|exact G]. destruct rd; [|exact G].
    cbn [fst nt_clients]. rewrite zget_zdel by exact (ni_nd _ _ _ _ J). destruct (Z.eqb_spec s s0); [congruence|exact G].
  - cbn [nstep]. destruct (Z.eqb_spec s0 s) as [->|Hne].
    + rewrite G. destruct (send_track (cl_session cl) m) as [c' r]. cbn [fst snd nt_clients]. rewrite zget_zset, Z.eqb_refl. reflexivity.
    + destruct (zget s0 (nt_clients n)) as [cl0|]; [|exact G]. destruct (send_track _ m) as [c' r]. cbn [fst nt_clients].
      rewrite zget_zset. destruct (Z.eqb_spec s s0); [congruence|exact G].
  - cbn [nstep]. unfold posts_of. destruct (zget s0 (nt_clients n)) as [[c [|m0 U] D]|] eqn:G0.
    + cbn [fst]. rewrite app_nil_r. destruct cl as [c1 U1 D1]. cbn [cl_session cl_up cl_down]. destruct (Z.eqb_spec s0 s) as [->|]; [|exact G].
      rewrite G in G0. injection G0 as -> -> ->. exact G.
    + destruct (route (nt_broker n) (nt_dealer n) s0 m0) as [[b' d'] posts]. cbn [fst snd nt_clients]. rewrite zget_post, zget_zset.
      destruct (Z.eqb_spec s s0) as [->|Hne].
      * rewrite G in G0. injection G0 as ->. cbn [cl_session cl_up cl_down tl]. rewrite Z.eqb_refl. reflexivity.
      * rewrite G. cbn [cl_session cl_up cl_down]. destruct (Z.eqb_spec s0 s); [congruence|reflexivity].
    + cbn [fst]. rewrite app_nil_r. destruct cl as [c1 U1 D1]. cbn [cl_session cl_up cl_down]. destruct (Z.eqb_spec s0 s) as [->|]; [congruence|exact G].
  - cbn [nstep]. destruct (Z.eqb_spec s0 s) as [->|Hne].
    + rewrite G. destruct cl as [c U [|m0 D]]; cbn [cl_session cl_up cl_down]; [exact G|].
      destruct (receive_message c m0) as [c' r]. cbn [fst nt_clients]. rewrite zget_zset, Z.eqb_refl. reflexivity.
    + destruct (zget s0 (nt_clients n)) as [[c U [|m0 D]]|]; try exact G. destruct (receive_message c m0) as [c' r]. cbn [fst nt_clients].
      rewrite zget_zset. destruct (Z.eqb_spec s s0); [congruence|exact G].
  - cbn [nstep]. destruct (Z.eqb_spec s0 s) as [->|Hne].
    + rewrite G. cbn [fst nt_clients]. rewrite zget_zset, Z.eqb_refl. reflexivity.
    + destruct (zget s0 (nt_clients n)) as [cl0|]; [|exact G]. cbn [fst nt_clients]. rewrite zget_zset. destruct (Z.eqb_spec s s0); [congruence|exact G].
Qed.

Lemma deliver_shows n s cl m D : zget s (nt_clients n) = Some cl -> cl_down cl = m :: D ->
  snd (nstep n (ADeliver s)) = Delivered m (snd (receive_message (cl_session cl) m)).
Proof. intros G E. destruct cl as [c U D']. cbn in E. subst D'. cbn [nstep cl_session]. rewrite G. destruct (receive_message c m). reflexivity. Qed.
Lemma deliver_head n s cl x r : zget s (nt_clients n) = Some cl -> snd (nstep n (ADeliver s)) = Delivered x r -> exists D, cl_down cl = x :: D.
Proof.
  intros G H. destruct cl as [c U [|m D]]; cbn [nstep] in H; rewrite G in H; [discriminate|].
  destruct (receive_message c m). injection H as -> _. exists D. reflexivity.
Qed.

(** ** Links drain *)
Lemma drain_down hf s m : forall after before cl, allowed hf (before ++ after) -> zget s (nt_clients (at_end before)) = Some cl ->
  In m (cl_down cl) -> ~ In (ALeave s) after -> idle s (at_end (before ++ after)) ->
  receives before s m after.
Proof.
  induction after as [|a after IH]; intros before cl A G Hin Hl Hi.
  - rewrite app_nil_r in Hi. destruct Hi as [c Hi]. rewrite G in Hi. injection Hi as ->. destruct Hin.
  - assert (A0 := allowed_app hf before _ A). assert (J := NInv_run Gd hf before A0).
    assert (G' := client_stays hf before (at_end before) a s cl J G (fun E => Hl (or_introl E))).
    assert (R : In m (cl_down (client_step (at_end before) s cl a)) -> receives before s m (a :: after)).
    { intros Hin'. rewrite <- at_end_snoc in G'.
      destruct (IH (before ++ [a]) _ ltac:(rewrite <- app_assoc; exact A) G' Hin' (fun H => Hl (or_intror H)) ltac:(rewrite <- app_assoc; exact Hi))
        as (b1 & b2 & r & -> & E).
      exists (a :: b1), b2, r. split; [reflexivity|]. rewrite <- app_assoc in E. exact E. }
    destruct a as [det|s0|s0 m0|s0|s0|s0 m0]; cbn [client_step] in R; try exact (R Hin).
    + destruct (s0 =? s); exact (R Hin).
    + apply R. apply in_or_app. left. exact Hin.
    + destruct (Z.eqb_spec s0 s) as [->|]; [|exact (R Hin)]. destruct (cl_down cl) as [|y D] eqn:ED; [destruct Hin|].
      destruct Hin as [->|Hin]; [|exact (R Hin)]. exists [], after. rewrite app_nil_r. eexists. split; [reflexivity|].
      exact (deliver_shows _ _ _ _ _ G ED).
    + destruct (s0 =? s); exact (R Hin).
Qed.

(** [Inv] holds as long as no message of [s] but those allowed by [ok] is routed. *)
Lemma drain_up hf s m (Q : net -> Prop) (ok : message -> Prop) : (* [Q] survives every step but the routing of a message that is not [ok] *)
  forall after before cl U1 U2, allowed hf (before ++ after) -> zget s (nt_clients (at_end before)) = Some cl ->
  (forall pre a post, before ++ after = pre ++ a :: post -> a <> ALeave s -> Q (at_end pre) ->
     (forall cl u U, zget s (nt_clients (at_end pre)) = Some cl -> a = ARoute s -> cl_up cl = u :: U -> ok u) -> Q (at_end (pre ++ [a]))) ->
  cl_up cl = U1 ++ m :: U2 -> Forall ok U1 -> Q (at_end before) -> ~ In (ALeave s) after -> idle s (at_end (before ++ after)) ->
  exists a1 a2 cl' U, after = a1 ++ ARoute s :: a2 /\ zget s (nt_clients (at_end (before ++ a1))) = Some cl' /\ cl_up cl' = m :: U /\ Q (at_end (before ++ a1)).
Proof.
  induction after as [|a after IH]; intros before cl U1 U2 A G St Hu Hok HQ Hl Hi.
  - rewrite app_nil_r in Hi. destruct Hi as [c Hi]. rewrite G in Hi. injection Hi as ->. cbn in Hu. destruct U1; discriminate.
  - assert (A0 := allowed_app hf before _ A). assert (J := NInv_run Gd hf before A0).
    assert (Hne : a <> ALeave s) by (intros E; apply Hl; left; exact E).
    assert (G' := client_stays hf before (at_end before) a s cl J G Hne).
    assert (R : forall V1 V2, cl_up (client_step (at_end before) s cl a) = V1 ++ m :: V2 -> Forall ok V1 ->
       (forall u U, a = ARoute s -> cl_up cl = u :: U -> ok u) ->
       exists a1 a2 cl' U, a :: after = a1 ++ ARoute s :: a2 /\ zget s (nt_clients (at_end (before ++ a1))) = Some cl' /\ cl_up cl' = m :: U /\ Q (at_end (before ++ a1))).
    { intros V1 V2 EV HV Hroute. rewrite <- at_end_snoc in G'.
      destruct (IH (before ++ [a]) _ V1 V2 ltac:(rewrite <- app_assoc; exact A) G') as (a1 & a2 & cl' & U & -> & X & Y & Z).
      - rewrite <- app_assoc. exact St.
      - exact EV.
      - exact HV.
      - apply (St before a after eq_refl Hne HQ). intros cl0 u U G0 Ea Eu. rewrite G in G0. injection G0 as <-. exact (Hroute u U Ea Eu).
      - intros H. apply Hl. right. exact H.
      - rewrite <- app_assoc. exact Hi.
      - exists (a :: a1), a2, cl', U. rewrite <- app_assoc in X, Z. auto. }
    destruct a as [det|s0|s0 m0|s0|s0|s0 m0]; cbn [client_step] in R.
    + apply (R U1 U2 Hu Hok). discriminate.
    + apply (R U1 U2 Hu Hok). discriminate.
    + destruct (s0 =? s); [|apply (R U1 U2 Hu Hok); discriminate]. cbn [cl_up] in R. destruct (snd (send_track _ m0)).
      * apply (R U1 (U2 ++ [m0])); [rewrite Hu, <- app_assoc; reflexivity|exact Hok|discriminate].
      * apply (R U1 U2 Hu Hok). discriminate.
    + cbn [cl_up] in R. destruct (Z.eqb_spec s0 s) as [->|Hs]; [|apply (R U1 U2 Hu Hok); congruence].
      destruct U1 as [|u U1]; [exists [], after, cl, U2; rewrite app_nil_r; auto|].
      apply Forall_cons_iff in Hok. destruct Hok as [Hok1 Hok]. apply (R U1 U2); [rewrite Hu; reflexivity|exact Hok|].
      intros u0 U0 _ E. rewrite Hu in E. injection E as <- _. exact Hok1.
    + destruct (s0 =? s); [|apply (R U1 U2 Hu Hok); discriminate]. destruct (cl_down cl); apply (R U1 U2 Hu Hok); discriminate.
    + destruct (s0 =? s); [|apply (R U1 U2 Hu Hok); discriminate]. cbn [cl_up] in R.
      apply (R U1 (U2 ++ [m0])); [rewrite Hu, <- app_assoc; reflexivity|exact Hok|discriminate].
Qed.

(** ** What the router remembers *)
Definition held (n : net) (s : Z) (m : message) (i : Z) : Prop :=
  match m with
  | Subscribe q => exists own l sub, zget s (b_by_session (nt_broker n)) = Some own /\ zget i own = Some l /\
      at_ (nt_broker n) l = Some sub /\ sub_topic sub = su_topic q
  | Register q => exists own l reg, zget s (d_by_session (nt_dealer n)) = Some own /\ zget i own = Some l /\
      dat (nt_dealer n) l = Some reg /\ reg_procedure reg = rg_procedure q
  | _ => False
  end.
Definition half_of (m : message) : half := match m with Register _ => Rpc | _ => PubSub end.

Definition bheld (b : broker) (s : Z) (t : string) (i : Z) : Prop :=
  exists own l sub, zget s (b_by_session b) = Some own /\ zget i own = Some l /\ at_ b l = Some sub /\ sub_topic sub = t.
Lemma bheld_step b hb o b' r s t i : BInv b hb -> b_room o hb -> boutcome b o b' r -> o <> BLeave s ->
  (forall u, o = BMsg s (Unsubscribe u) -> pyint_Z (us_subscription u) <> i) -> bheld b s t i -> bheld b' s t i.
Proof.
  intros ((W & O & SS) & _ & T) [L0 L] Ho Hl Hu (own & l & sub & H1 & H2 & H3 & H4). specialize (T ltac:(lia)).
  assert (Same : b_by_session b' = b_by_session b -> b_heap b' = b_heap b -> bheld b' s t i).
  { intros E1 E2. exists own, l, sub. unfold at_ in *. rewrite E1, E2. auto. }
  destruct (ow_own _ O _ _ _ _ H1 H2) as (sub' & H5 & H6 & H7). rewrite H3 in H5. injection H5 as <-.
  destruct Ho; cbv beta iota in L; try (apply Same; reflexivity).
  - exists own, l, sub. unfold at_ in *. cbn [b_by_session b_heap]. rewrite zget_zset. destruct (Z.eqb_spec s (pyint_Z (det_session d))); [congruence|auto].
  - match goal with X : b_by_session b' = _ |- _ => rename X into Eb end. match goal with X : forall l, at_ b' l = _ |- _ => rename X into Ea end.
    exists own, l. rewrite Eb, Ea. rewrite zget_zdel by exact (ow_nd_session _ O). destruct (Z.eqb_spec s s0) as [->|]; [congruence|].
    destruct (in_dec _ _ _); [rewrite H3; exists (minus s0 sub)|exists sub]; auto.
  - (* new subscription *) unfold bheld, at_ in *. cbn [b_by_session b_heap].
    assert (Hne : l <> length (b_heap b)).
    { intros ->. assert (nth_error (b_heap b) (length (b_heap b)) = None) by (apply nth_error_None; lia). congruence. }
    rewrite zget_zset. destruct (Z.eqb_spec s s0) as [->|].
    + exists (zset id (length (b_heap b)) own0), l, sub. rewrite zget_zset, nth_snoc. replace own0 with own by congruence.
      destruct (Z.eqb_spec i id) as [->|]; [|destruct (Nat.eqb_spec l (length (b_heap b))); [contradiction|auto]].
      exfalso. pose proof (tr_ids _ _ T l sub H3) as X. pose proof (tr_gen _ _ T) as Y. match goal with X : next_id _ = _ |- _ => unfold next_id in X; destruct (Z.eqb_spec (b_idgen b) ID_MAX); [lia|]; injection X as _ X end. lia.
    + exists own, l, sub. rewrite nth_snoc. destruct (Nat.eqb_spec l (length (b_heap b))); [contradiction|auto].
  - (* joining one *) unfold bheld, at_ in *. cbn [b_by_session b_heap]. match goal with X : nth_error _ l0 = Some sub0 |- _ => rename X into Hl0 end.
    assert (Hat : exists sub', nth_error (put (b_heap b) l0 (mkSub (sub_id sub0) (sub_topic sub0) (zset s0 s0 (sub_subscribers sub0)))) l = Some sub' /\ sub_topic sub' = t).
    { rewrite (nth_put _ _ _ _ _ Hl0). destruct (Nat.eqb_spec l l0) as [->|]; [|eauto]. eexists. split; [reflexivity|]. cbn. rewrite Hl0 in H3. congruence. }
    destruct Hat as (sub' & Hs' & Ht'). rewrite zget_zset. destruct (Z.eqb_spec s s0) as [->|].
    + exists (zset (sub_id sub0) l0 own0), l, sub'. rewrite zget_zset. replace own0 with own by congruence.
      destruct (Z.eqb_spec i (sub_id sub0)) as [E|]; [|auto]. split; [reflexivity|]. split; [|auto].
      f_equal. apply (tr_inj _ _ T l0 l sub0 sub); [exact Hl0|exact H3|congruence].
    + exists own, l, sub'. auto.
  - (* unsubscribe *) match goal with X : b_by_session b' = _ |- _ => rename X into Eb end. match goal with X : forall l, at_ b' l = _ |- _ => rename X into Ea end.
    match goal with X : at_ b l0 = Some sub0 |- _ => rename X into Hl0 end.
    assert (Hat : exists sub', at_ b' l = Some sub' /\ sub_topic sub' = t).
    { rewrite Ea. destruct (Nat.eqb_spec l l0) as [->|]; [|eauto]. eexists. split; [reflexivity|]. cbn. rewrite Hl0 in H3. congruence. }
    destruct Hat as (sub' & Hs' & Ht'). unfold bheld. rewrite Eb, zget_zset. destruct (Z.eqb_spec s s0) as [->|].
    + exists (zdel (pyint_Z (us_subscription m)) own0), l, sub'. replace own0 with own by congruence.
      rewrite zget_zdel by exact (ow_nd_own _ O _ _ H1). specialize (Hu m eq_refl). destruct (Z.eqb_spec i (pyint_Z (us_subscription m))); [congruence|auto].
    + exists own, l, sub'. auto.
Qed.

Definition dheld (d : dealer) (s : Z) (p : string) (i : Z) : Prop :=
  exists own l reg, zget s (d_by_session d) = Some own /\ zget i own = Some l /\ dat d l = Some reg /\ reg_procedure reg = p.
Lemma dheld_step d hd o d' r s p i : DInv d hd -> d_room o hd -> doutcome d o d' r -> o <> DLeave s ->
  (forall u, o = DMsg s (Unregister u) -> pyint_Z (ur_registration u) <> i) -> dheld d s p i -> dheld d' s p i.
Proof.
  intros ((W & O & SS) & _ & _ & T) [L0 L] Ho Hl Hu (own & l & reg & H1 & H2 & H3 & H4). specialize (T ltac:(lia)).
  assert (Same : d_by_session d' = d_by_session d -> d_heap d' = d_heap d -> dheld d' s p i).
  { intros E1 E2. exists own, l, reg. unfold dat in *. rewrite E1, E2. auto. }
  destruct (do_own _ O _ _ _ _ H1 H2) as (reg' & H5 & H6 & H7). rewrite H3 in H5. injection H5 as <-.
  destruct Ho; cbv beta iota in L; try (apply Same; reflexivity).
  - exists own, l, reg. unfold dat in *. cbn [d_by_session d_heap set_dsession set_dsessions]. rewrite zget_zset.
    destruct (Z.eqb_spec s (pyint_Z (det_session det))); [congruence|auto].
  - match goal with X : d_by_session d' = _ |- _ => rename X into Eb end. match goal with X : forall l, dat d' l = _ |- _ => rename X into Ea end.
    exists own, l. rewrite Eb, Ea. rewrite zget_zdel by exact (do_nd_session _ O). destruct (Z.eqb_spec s s0) as [->|]; [congruence|].
    destruct (in_dec _ _ _); [rewrite H3; exists (freed reg)|exists reg]; auto.
  - (* registered *) unfold dheld, dat in *. cbn [d_by_session d_heap].
    assert (Hne : l <> length (d_heap d)).
    { intros ->. assert (nth_error (d_heap d) (length (d_heap d)) = None) by (apply nth_error_None; lia). congruence. }
    rewrite zget_zset. destruct (Z.eqb_spec s s0) as [->|].
    + exists (zset id (length (d_heap d)) own0), l, reg. rewrite zget_zset, nth_snoc. replace own0 with own by congruence.
      destruct (Z.eqb_spec i id) as [->|]; [|destruct (Nat.eqb_spec l (length (d_heap d))); [contradiction|auto]].
      exfalso. pose proof (dt_ids _ _ T l reg H3) as X. pose proof (dt_gen _ _ T) as Y. match goal with X : next_id _ = _ |- _ => unfold next_id in X; destruct (Z.eqb_spec (d_idgen d) ID_MAX); [lia|]; injection X as _ X end. lia.
    + exists own, l, reg. rewrite nth_snoc. destruct (Nat.eqb_spec l (length (d_heap d))); [contradiction|auto].
  - (* unregistered *) match goal with X : d_by_session d' = _ |- _ => rename X into Eb end. match goal with X : forall l, dat d' l = _ |- _ => rename X into Ea end.
    match goal with X : dat d l0 = Some reg0 |- _ => rename X into Hl0 end.
    assert (Hat : exists reg', dat d' l = Some reg' /\ reg_procedure reg' = p).
    { rewrite Ea. destruct (Nat.eqb_spec l l0) as [->|]; [|eauto]. eexists. split; [reflexivity|]. cbn. rewrite Hl0 in H3. congruence. }
    destruct Hat as (reg' & Hs' & Ht'). unfold dheld. rewrite Eb, zget_zset. destruct (Z.eqb_spec s s0) as [->|].
    + exists (zdel (pyint_Z (ur_registration m)) own0), l, reg'. replace own0 with own by congruence.
      rewrite zget_zdel by exact (do_nd_own _ O _ _ H1). specialize (Hu m eq_refl). destruct (Z.eqb_spec i (pyint_Z (ur_registration m))); [congruence|auto].
    + exists own, l, reg'. auto.
Qed.

(** The router's step on a message, as steps of broker and dealer. *)
Lemma route_outcome b d s m b' d' posts : Inv1 b -> DInv1 d -> route b d s m = (b', d', posts) ->
  (b' = b \/ exists o r, boutcome b o b' r /\ (o = BMsg s m \/ exists p, m = Publish p /\ o = BPub s p)) /\
  (d' = d \/ exists r, doutcome d (DMsg s m) d' r).
Proof.
  intros J1 J2 R. pose proof (bstep_outcome b (BMsg s m) J1) as Ob. pose proof (dstep_outcome d (DMsg s m) J2) as Od. cbn [bstep dstep] in Ob, Od.
  destruct m; cbn [route] in R; try (injection R as <- <- <-; auto; fail).
  all: try (match type of R with context [d_receive_message _ _ _] => destruct (d_receive_message d s _) as [d1 r1]; injection R as <- <- <-; cbn [fst snd] in Od; split; [auto|right; eexists; exact Od] end).
  all: try (match type of R with context [b_receive_message _ _ _] => destruct (b_receive_message b s _) as [b1 r1]; injection R as <- <- <-; cbn [fst snd] in Ob; split; [right; eexists _, _; split; [exact Ob|auto]|auto] end).
  pose proof (bstep_outcome b (BPub s m) J1) as Op. cbn [bstep] in Op. destruct (b_receive_publish b s m) as [b1 r1]. injection R as <- <- <-.
  cbn [fst snd] in Op. split; [|auto]. right. eexists _, _. split; [exact Op|]. right. eauto.
Qed.

Lemma held_step hf acts a s m i : allowed hf (acts ++ [a]) -> a <> ALeave s ->
  (forall cl u U, zget s (nt_clients (at_end acts)) = Some cl -> a = ARoute s -> cl_up cl = u :: U -> ends i m u = false) ->
  held (at_end acts) s m i -> held (at_end (acts ++ [a])) s m i.
Proof.
  intros A Ha Hu H. assert (J := NInv_run Gd hf acts (allowed_prefix _ _ _ _ A)). rewrite at_end_snoc. fold (at_end acts) in J. set (n := at_end acts) in *.
  pose proof J as [(hb & Jb & Lb) (hd & Jd & Ld) _ _ _ _ _ _ _ _].
  assert (Ln : routings acts + (if is_route a then 1 else 0) <= ID_MAX) by (destruct A as [A _]; rewrite routings_snoc in A; exact A).
  assert (K : forall b' d', (exists o r, boutcome (nt_broker n) o b' r /\ b_room o hb /\ o <> BLeave s /\
                (forall u, o = BMsg s (Unsubscribe u) -> ends i m (Unsubscribe u) = false)) \/ b' = nt_broker n ->
              (exists o r, doutcome (nt_dealer n) o d' r /\ d_room o hd /\ o <> DLeave s /\
                (forall u, o = DMsg s (Unregister u) -> ends i m (Unregister u) = false)) \/ d' = nt_dealer n ->
              forall cs, held (mkNet cs b' d') s m i).
  { intros b' d' Hb Hd cs. destruct m; cbn [held ends] in *; try contradiction; cbn [nt_broker nt_dealer].
    - destruct Hb as [(o & r & Ho & N0 & N1 & N2)| ->]; [|exact H]. apply (bheld_step (nt_broker n) hb o b' r s (su_topic m) i Jb N0 Ho N1); [|exact H].
      intros u E. specialize (N2 u E). apply Z.eqb_neq in N2. exact N2.
    - destruct Hd as [(o & r & Ho & N0 & N1 & N2)| ->]; [|exact H]. apply (dheld_step (nt_dealer n) hd o d' r s (rg_procedure m) i Jd N0 Ho N1); [|exact H].
      intros u E. specialize (N2 u E). apply Z.eqb_neq in N2. exact N2. }
  destruct a as [det|s0|s0 m0|s0|s0|s0 m0]; cbn [nstep].
  - pose proof (bstep_outcome (nt_broker n) (BJoin det) (proj1 Jb)) as Ob. pose proof (dstep_outcome (nt_dealer n) (DJoin det) (proj1 Jd)) as Od. cbn [bstep dstep] in Ob, Od.
    destruct (b_add_session (nt_broker n) det) as [b' rb], (d_add_session (nt_dealer n) det) as [d' rd]. destruct rb; [|exact H]. destruct rd; [|exact H].
    cbn [fst snd] in *. cbn [is_route] in Ln. apply K; left; eexists _, _; (split; [eassumption|split; [split; [lia|exact Logic.I]|split; [discriminate|discriminate]]]).
  - pose proof (bstep_outcome (nt_broker n) (BLeave s0) (proj1 Jb)) as Ob. pose proof (dstep_outcome (nt_dealer n) (DLeave s0) (proj1 Jd)) as Od. cbn [bstep dstep] in Ob, Od.
    destruct (b_remove_session (nt_broker n) s0) as [b' rb], (d_remove_session (nt_dealer n) s0) as [d' rd]. destruct rb; [|exact H]. destruct rd; [|exact H].
    cbn [fst snd] in *. cbn [is_route] in Ln. apply K; left; eexists _, _; (split; [eassumption|split; [split; [lia|exact Logic.I]|split; [congruence|discriminate]]]).
  - destruct (zget s0 (nt_clients n)) as [cl|]; [|exact H]. destruct (send_track _ m0). apply K; auto.
  - destruct (zget s0 (nt_clients n)) as [[c [|u U] D]|] eqn:G; try exact H. destruct (route (nt_broker n) (nt_dealer n) s0 u) as [[b' d'] posts] eqn:R.
    destruct (route_outcome _ _ _ _ _ _ _ (proj1 Jb) (proj1 Jd) R) as [Rb Rd].
    assert (E : s0 = s -> ends i m u = false) by (intros ->; exact (Hu _ u U G eq_refl eq_refl)). cbn [fst]. cbn [is_route] in Ln. apply K.
    + destruct Rb as [->|(o & r & Ho & Hor)]; [auto|]. left. exists o, r. split; [exact Ho|]. split; [apply b_room_lt; lia|]. destruct Hor as [->|(p & -> & ->)]; [|split; discriminate].
      split; [discriminate|]. intros x [= -> ->]. apply E. reflexivity.
    + destruct Rd as [->|(r & Ho)]; [auto|]. left. exists (DMsg s0 u), r. split; [exact Ho|]. split; [apply d_room_lt; lia|]. split; [discriminate|]. intros x [= -> ->]. apply E. reflexivity.
  - destruct (zget s0 (nt_clients n)) as [[c U [|u D]]|]; try exact H. destruct (receive_message c u). apply K; auto.
  - destruct (zget s0 (nt_clients n)) as [cl|]; [|exact H]. apply K; auto.
Qed.

(** A granted id is held from then on. *)
Lemma grant_held n s m rest b' d' posts : NInv (half_of m) rest n -> routings rest < ID_MAX ->
  match m with Subscribe _ | Register _ => True | _ => False end -> zmem s (nt_clients n) = true ->
  route (nt_broker n) (nt_dealer n) s m = (b', d', posts) -> forall k r, in_half (half_of m) k = true -> up_req k m = Some r ->
  exists y, In y (mail posts s) /\ down_req k y = Some r /\ forall i, grants m y = Some i -> forall cs, held (mkNet cs b' d') s m i.
Proof.
  intros J L Hm Hc R k r Hk Hu. pose proof J as [(hb & Jb & Lb) (hd & Jd & Ld) _ Sb Sd _ _ _ _ _].
  assert (Mb := Hc). rewrite <- Sb, zmem_zget in Mb. assert (Md := Hc). rewrite <- Sd, zmem_zget in Md.
  pose proof (bstep_outcome (nt_broker n) (BMsg s m) (proj1 Jb)) as Ob. pose proof (dstep_outcome (nt_dealer n) (DMsg s m) (proj1 Jd)) as Od. cbn [bstep dstep] in Ob, Od.
  destruct m; try contradiction; cbn [route] in R.
  - (* subscribe *) cbn [up_req asks] in Hu. destruct k; try discriminate. injection Hu as <-.
    destruct (b_receive_message _ _ _) as [b1 r1]. injection R as <- <- <-. cbn [fst snd] in Ob. destruct r1 as [rt|e]; cbn [out_of] in Ob; inversion Ob; subst; try congruence.
    + eexists. split; [rewrite mail_one, Z.eqb_refl; left; reflexivity|]. split; [reflexivity|].
      cbn [grants sd_request sd_subscription pyint_Z]. rewrite Z.eqb_refl. intros i [= <-] cs. cbn [held nt_broker b_by_session].
      exists (zset id (length (b_heap (nt_broker n))) own), (length (b_heap (nt_broker n))). unfold at_. cbn [b_heap]. rewrite !zget_zset, !Z.eqb_refl, nth_snoc, Nat.eqb_refl.
      eexists. split; [reflexivity|]. split; [reflexivity|]. split; reflexivity.
    + eexists. split; [rewrite mail_one, Z.eqb_refl; left; reflexivity|]. split; [reflexivity|].
      cbn [grants sd_request sd_subscription pyint_Z]. rewrite Z.eqb_refl. intros i [= <-] cs. cbn [held nt_broker b_by_session].
      exists (zset (sub_id sub) l own), l. match goal with X : at_ _ l = Some sub |- _ => unfold at_ in X; unfold at_; cbn [b_heap]; rewrite (nth_put _ _ _ _ _ X) end.
      rewrite !zget_zset, !Z.eqb_refl, Nat.eqb_refl. eexists. split; [reflexivity|]. split; [reflexivity|]. split; [reflexivity|]. cbn. congruence.
    + match goal with X : zget s _ = None |- _ => rewrite X in Mb end. discriminate.
  - (* register *) cbn [up_req asks] in Hu. destruct k; try discriminate. injection Hu as <-.
    destruct (d_receive_message _ _ _) as [d1 r1]. injection R as <- <- <-. cbn [fst snd] in Od. destruct r1 as [rt|e]; cbn [d_out_of] in Od; inversion Od; subst.
    + eexists. split; [rewrite mail_one, Z.eqb_refl; left; reflexivity|]. split; [reflexivity|]. discriminate.
    + eexists. split; [rewrite mail_one, Z.eqb_refl; left; reflexivity|]. split; [reflexivity|].
      cbn [grants rd_request rd_registration pyint_Z]. rewrite Z.eqb_refl. intros i [= <-] cs. cbn [held nt_dealer d_by_session].
      exists (zset id (length (d_heap (nt_dealer n))) own), (length (d_heap (nt_dealer n))). unfold dat. cbn [d_heap]. rewrite !zget_zset, !Z.eqb_refl, nth_snoc, Nat.eqb_refl.
      eexists. split; [reflexivity|]. split; [reflexivity|]. split; reflexivity.
    + match goal with X : zget s _ = None |- _ => rewrite X in Md end. discriminate.
    + contradiction.
Qed.

(** ** From the request to the grant *)
Lemma receives_snoc a1 s x a2 a : receives a1 s x (a2 ++ [a]) <->
  receives a1 s x a2 \/ (a = ADeliver s /\ exists r, snd (nstep (at_end (a1 ++ a2)) (ADeliver s)) = Delivered x r).
Proof.
  split.
  - intros (b1 & b2 & r & E & H). destruct b2 as [|y b2] using rev_ind.
    + apply app_inj_tail in E. destruct E as [-> ->]. right. split; [reflexivity|]. exists r. exact H.
    + clear IHb2. left. change (ADeliver s :: b2 ++ [y]) with ((ADeliver s :: b2) ++ [y]) in E. rewrite app_assoc in E.
      apply app_inj_tail in E. destruct E as [-> _]. exists b1, b2, r. auto.
  - intros [(b1 & b2 & r & -> & H)|(-> & r & H)].
    + exists b1, (b2 ++ [a]), r. rewrite <- app_assoc. auto.
    + exists a2, [], r. auto.
Qed.

Definition clean (i : Z) (m : message) (U : list message) : Prop := Forall (fun u => ends i m u = false) U.
(** The kind of request. *)
Definition kind_of (m : message) : request_kind := match m with Register _ => RReg | _ => RSub end.
Definition claims (m : message) : Prop := match m with Subscribe _ | Register _ => True | _ => False end.

Inductive life (a1 : list action) (s : Z) (m : message) (i r : Z) (a2 : list action) (cl : client) (n : net) : Prop :=
| life_up U1 U2 : cl_up cl = U1 ++ m :: U2 -> clean i m U2 ->
    (forall y, receives a1 s y a2 -> down_req (kind_of m) y <> Some r) -> life a1 s m i r a2 cl n
| life_down y : In y (cl_down cl) -> down_req (kind_of m) y = Some r -> clean i m (cl_up cl) ->
    (grants m y = Some i -> held n s m i) ->
    (forall y, receives a1 s y a2 -> down_req (kind_of m) y <> Some r) -> life a1 s m i r a2 cl n
| life_done : ~ In r (outstanding (kind_of m) (cl_session cl)) -> clean i m (cl_up cl) ->
    (forall y, receives a1 s y a2 -> down_req (kind_of m) y = Some r -> grants m y = Some i -> held n s m i) -> life a1 s m i r a2 cl n.

Lemma claims_half m : claims m -> in_half (half_of m) (kind_of m) = true.
Proof. destruct m; cbn; try contradiction; reflexivity. Qed.
Lemma claims_req m : claims m -> exists r, up_req (kind_of m) m = Some r /\ forall y i, grants m y = Some i -> down_req (kind_of m) y = Some r.
Proof.
  destruct m; cbn [claims]; try contradiction; intros _; eexists; (split; [reflexivity|]); intros y i; destruct y; try discriminate; cbn [grants kind_of down_req];
    destruct (Z.eqb_spec (pyint_Z (su_request m)) (pyint_Z (sd_request m0))) as [->|] || destruct (Z.eqb_spec (pyint_Z (rg_request m)) (pyint_Z (rd_request m0))) as [->|];
    try discriminate; reflexivity.
Qed.
Lemma claims_track c m : claims m -> exists c', send_track c m = (c', Ok tt).
Proof. destruct m; cbn [claims]; try contradiction; intros _; eexists; reflexivity. Qed.

Lemma NoDup_app_disjoint {A} (l1 l2 : list A) : NoDup (l1 ++ l2) -> forall x, In x l1 -> In x l2 -> False.
Proof.
  induction l1 as [|y l1 IH]; cbn [app]; intros N x H1 H2; [destruct H1|]. inversion N as [|? ? X N']. subst.
  destruct H1 as [->|H1]; [|exact (IH N' x H1 H2)]. apply X. apply in_or_app. right. exact H2.
Qed.
Lemma omap_cons_in {A B} (f : A -> option B) x l y : In y (omap f l) -> In y (omap f (x :: l)).
Proof. cbn [omap]. destruct (f x); [right|]; auto. Qed.

Lemma life_run s m i r b1 : Gd s -> claims m -> up_req (kind_of m) m = Some r -> forall a2,
  allowed (half_of m) (b1 ++ ASend s m :: a2) -> connected s (at_end b1) = true -> keeps_on s i m a2 ->
  exists cl, zget s (nt_clients (at_end (b1 ++ ASend s m :: a2))) = Some cl /\
    life (b1 ++ [ASend s m]) s m i r a2 cl (at_end (b1 ++ ASend s m :: a2)).
Proof.
  intros Hg0 Hm Hr. assert (Hk := claims_half m Hm). induction a2 as [|a a2 IH] using rev_ind; intros A Hc Hk0.
  - assert (J := NInv_run _ _ b1 (allowed_prefix _ _ _ _ A)). fold (at_end b1) in J. apply connected_get in Hc. destruct Hc as [cl G].
    assert (G' := client_stays _ b1 _ (ASend s m) s cl J G ltac:(discriminate)). rewrite <- at_end_snoc in G'. cbn [client_step] in G'. rewrite Z.eqb_refl in G'.
    destruct (claims_track (cl_session cl) m Hm) as [c' E]. rewrite E in G'. cbn [fst snd] in G'.
    eexists. split; [exact G'|]. apply (life_up _ _ _ _ _ _ _ _ (cl_up cl) []); [reflexivity|constructor|].
    intros y (x1 & x2 & rr & X & _). destruct x1; discriminate.
  - change (b1 ++ ASend s m :: a2 ++ [a]) with (b1 ++ (ASend s m :: a2) ++ [a]) in *. rewrite app_assoc in *.
    assert (A0 := allowed_prefix _ _ _ _ A). destruct Hk0 as [Hl Hu].
    assert (Hne : a <> ALeave s) by (intros ->; apply Hl; apply in_or_app; right; left; reflexivity).
    destruct IH as (cl & G & L); [exact A0|exact Hc|split; [intros X; apply Hl, in_or_app; auto|intros u X; apply Hu, in_or_app; auto]|].
    assert (Heq : (b1 ++ [ASend s m]) ++ a2 = b1 ++ ASend s m :: a2) by (rewrite <- app_assoc; reflexivity).
    set (acts := b1 ++ ASend s m :: a2) in *.
    assert (J := NInv_run _ _ acts A0). fold (at_end acts) in J.
    assert (CIs := ni_cl _ _ _ _ J s cl Hg0 G).
    assert (G' := client_stays _ acts _ a s cl J G Hne). rewrite at_end_snoc. eexists. split; [exact G'|].
    assert (Hrcv : forall y, receives (b1 ++ [ASend s m]) s y (a2 ++ [a]) ->
      receives (b1 ++ [ASend s m]) s y a2 \/ (a = ADeliver s /\ exists D, cl_down cl = y :: D)).
    { intros y H. apply receives_snoc in H. destruct H as [H|(-> & rr & H)]; [auto|]. right. split; [reflexivity|]. rewrite Heq in H. exact (deliver_head _ _ _ _ _ G H). }
    assert (Keep : clean i m (cl_up cl) -> held (at_end acts) s m i -> held (fst (nstep (at_end acts) a)) s m i).
    { intros Hcl Hh. rewrite <- at_end_snoc. apply (held_step (half_of m)); [exact A|exact Hne| |exact Hh].
      intros cl0 u U G0 _ E. rewrite G in G0. injection G0 as <-. rewrite E in Hcl. apply Forall_inv in Hcl. exact Hcl. }
    assert (Cl : clean i m (cl_up cl) -> clean i m (cl_up (client_step (at_end acts) s cl a))).
    { intros Hcl. destruct a as [det|s0|s0 m0|s0|s0|s0 m0]; cbn [client_step]; try exact Hcl.
      - destruct (Z.eqb_spec s0 s) as [->|]; [|exact Hcl]. cbn [cl_up]. destruct (snd (send_track _ m0)); [|exact Hcl].
        apply Forall_app. split; [exact Hcl|]. constructor; [|constructor]. apply Hu. apply in_or_app. right. left. reflexivity.
      - cbn [cl_up]. destruct (s0 =? s); [|exact Hcl]. destruct (cl_up cl); [constructor|]. cbn [tl]. apply Forall_inv_tail in Hcl. exact Hcl.
      - destruct (s0 =? s); [|exact Hcl]. destruct (cl_down cl); exact Hcl.
      - destruct (Z.eqb_spec s0 s) as [->|]; [destruct (put_foreign _ _ _ _ _ A Hg0)|exact Hcl]. }
    destruct L as [U1 U2 EU HU2 Hn|y Hy Hd Hcl Hg Hn|Ho Hcl Hg].
    + (* still on its way *)
      assert (Up : In r (omap (up_req (kind_of m)) (cl_up cl))) by (apply omap_in; exists m; split; [rewrite EU; apply in_or_app; right; left; reflexivity|exact Hr]).
      assert (Hn' : forall y, receives (b1 ++ [ASend s m]) s y (a2 ++ [a]) -> down_req (kind_of m) y <> Some r).
      { intros y H E. destruct (Hrcv y H) as [H'|(-> & D & ED)]; [exact (Hn y H' E)|].
        pose proof (ci_nd _ _ _ _ _ _ _ CIs (kind_of m) Hk) as N. unfold obl in N. rewrite ED in N. apply (NoDup_app_disjoint _ _ N r Up).
        apply in_or_app. right. cbn [omap]. rewrite E. left. reflexivity. }
      destruct a as [det|s0|s0 m0|s0|s0|s0 m0]; cbn [client_step].
      * apply (life_up _ _ _ _ _ _ _ _ U1 U2); assumption.
      * apply (life_up _ _ _ _ _ _ _ _ U1 U2); assumption.
      * destruct (Z.eqb_spec s0 s) as [->|]; [|apply (life_up _ _ _ _ _ _ _ _ U1 U2); assumption].
        destruct (snd (send_track _ m0)); [|apply (life_up _ _ _ _ _ _ _ _ U1 U2); assumption].
        apply (life_up _ _ _ _ _ _ _ _ U1 (U2 ++ [m0])); [cbn [cl_up]; rewrite EU, <- app_assoc; reflexivity| |exact Hn'].
        apply Forall_app. split; [exact HU2|]. constructor; [|constructor]. apply Hu. apply in_or_app. right. left. reflexivity.
      * destruct (Z.eqb_spec s0 s) as [->|]; [|apply (life_up _ _ _ _ _ _ _ _ U1 U2); assumption].
        destruct U1 as [|u U1]; [|apply (life_up _ _ _ _ _ _ _ _ U1 U2); [cbn [cl_up]; rewrite EU; reflexivity|assumption|assumption]].
        (* routed now *) cbn [app] in EU. unfold posts_of. cbn [nstep]. destruct cl as [c U D]. cbn [cl_up] in EU. subst U. rewrite G.
        assert (Ln : routings acts < ID_MAX) by (destruct A as [A _]; rewrite routings_snoc in A; cbn [is_route] in A; lia).
        destruct (route (nt_broker (at_end acts)) (nt_dealer (at_end acts)) s m) as [[b' d'] posts] eqn:R.
        destruct (grant_held _ s m acts b' d' posts J Ln Hm ltac:(rewrite zmem_zget, G; reflexivity) R (kind_of m) r Hk Hr) as (y & Y1 & Y2 & Y3).
        apply (life_down _ _ _ _ _ _ _ _ y); [apply in_or_app; right; exact Y1|exact Y2|exact HU2|intros E; apply Y3; exact E|exact Hn'].
      * destruct (s0 =? s); [|apply (life_up _ _ _ _ _ _ _ _ U1 U2); assumption]. destruct (cl_down cl); apply (life_up _ _ _ _ _ _ _ _ U1 U2); assumption.
      * destruct (Z.eqb_spec s0 s) as [->|]; [destruct (put_foreign _ _ _ _ _ A Hg0)|apply (life_up _ _ _ _ _ _ _ _ U1 U2); assumption].
    + (* the answer is on its way *)
      assert (Stay : In y (cl_down (client_step (at_end acts) s cl a)) -> (forall z, a = ADeliver s -> (exists D, cl_down cl = z :: D) -> down_req (kind_of m) z <> Some r) ->
        life (b1 ++ [ASend s m]) s m i r (a2 ++ [a]) (client_step (at_end acts) s cl a) (fst (nstep (at_end acts) a))).
      { intros Hin Hz. apply (life_down _ _ _ _ _ _ _ _ y); auto. intros z H. destruct (Hrcv z H) as [H'|(E & D)]; [apply Hn, H'|apply Hz; assumption]. }
      destruct a as [det|s0|s0 m0|s0|s0|s0 m0]; try (apply Stay; [|discriminate]); cbn [client_step]; try exact Hy.
      * destruct (s0 =? s); exact Hy.
      * apply in_or_app. left. exact Hy.
      * destruct (Z.eqb_spec s0 s) as [->|Hs]; [|cbn [client_step] in Stay; destruct (Z.eqb_spec s0 s); [contradiction|]; apply Stay; [exact Hy|congruence]].
        destruct (cl_down cl) as [|z D] eqn:ED; [destruct Hy|].
        pose proof (ci_nd _ _ _ _ _ _ _ CIs (kind_of m) Hk) as N. unfold obl in N. apply NoDup_app_r in N. apply NoDup_app_r in N. rewrite ?ED in N. cbn [omap] in N.
        assert (Dec : {down_req (kind_of m) z = Some r} + {down_req (kind_of m) z <> Some r}) by (destruct (down_req (kind_of m) z) as [w|]; [destruct (Z.eq_dec w r); [left|right]; congruence|right; discriminate]).
        destruct Dec as [Ez|Ez].
        -- assert (z = y).
           { destruct Hy as [Hy|Hy]; [exact Hy|]. exfalso. rewrite Ez in N. inversion N as [|? ? X _]. apply X. apply omap_in. eauto. }
           subst z. apply life_done.
           ++ cbn [cl_session]. destruct cl as [c U D']. cbn [cl_down] in ED. subst D'. cbn [cl_session cl_up cl_down] in *. intros X.
              apply (CI_deliver_out _ _ _ _ _ _ _ _ CIs (kind_of m) r Hk) in X. apply X. exact Ez.
           ++ exact Hcl.
           ++ intros w Hw Ew Gw. apply Keep; [exact Hcl|]. destruct (Hrcv w Hw) as [H'|(_ & D' & ED')]; [destruct (Hn w H' Ew)|].
              rewrite ?ED in ED'. injection ED' as <- _. apply Hg, Gw.
        -- destruct Hy as [->|Hy]; [contradiction|]. apply (life_down _ _ _ _ _ _ _ _ y); [exact Hy|exact Hd|exact Hcl|intros E; apply Keep; auto|].
           intros w Hw Ew. destruct (Hrcv w Hw) as [H'|(_ & D' & ED')]; [exact (Hn w H' Ew)|]. rewrite ?ED in ED'. injection ED' as <- _. contradiction.
      * destruct (s0 =? s); exact Hy.
    + (* granted *) apply life_done.
      * intros X. apply Ho. destruct a as [det|s0|s0 m0|s0|s0|s0 m0]; cbn [client_step] in X; try exact X.
        -- destruct (Z.eqb_spec s0 s) as [->|]; [|exact X]. cbn [cl_session] in X. destruct (send_track (cl_session cl) m0) as [c' rr] eqn:E. cbn [fst] in X.
           destruct rr as [[]|e]; [|apply send_raises in E; subst c'; exact X]. destruct (send_fields _ _ _ E) as (F & _ & _). apply F in X.
           destruct X as [X|X]; [|exact X]. exfalso. destruct A as (_ & DD). destruct (DD s Hg0) as ((_ & NR) & _). apply Hl.
           apply in_or_app. left. apply (NR b1 m a2 m0 [] (kind_of m) r); [unfold acts; rewrite <- app_assoc; reflexivity|exact Hk|apply up_req_asks; exact Hr|apply up_req_asks; exact X].
        -- destruct (Z.eqb_spec s0 s) as [->|]; [|exact X]. destruct cl as [c U [|z D]]; cbn [cl_session cl_down] in *; [exact X|].
           apply (CI_deliver_out _ _ _ _ _ _ _ _ CIs (kind_of m) r Hk) in X. apply X.
        -- destruct (s0 =? s); exact X.
      * apply Cl, Hcl.
      * intros w Hw Ew Gw. apply Keep; [exact Hcl|]. destruct (Hrcv w Hw) as [H'|(_ & D' & ED')]; [exact (Hg w H' Ew Gw)|]. exfalso. apply Ho.
        apply (ci_out _ _ _ _ _ _ _ CIs (kind_of m) r Hk). apply in_obl. right. right. rewrite ED'. cbn [omap]. rewrite Ew. left. reflexivity.
Qed.

Theorem holding_held s m i acts : Gd s -> claims m -> allowed (half_of m) acts -> holding s m i acts ->
  held (at_end acts) s m i /\ exists cl, zget s (nt_clients (at_end acts)) = Some cl /\ clean i m (cl_up cl).
Proof.
  intros Hg0 Hm A (b1 & a2 & x & -> & Hc & Hk & Hx & Gx). destruct (claims_req m Hm) as (r & Hr & Hg).
  destruct (life_run s m i r b1 Hg0 Hm Hr a2 A Hc Hk) as (cl & G & L). assert (Ex := Hg x i Gx).
  destruct L as [U1 U2 EU HU2 Hn|y Hy Hd Hcl Hg' Hn|Ho Hcl Hg'].
  - destruct (Hn x Hx Ex).
  - destruct (Hn x Hx Ex).
  - split; [exact (Hg' x Hx Ex Gx)|]. exists cl. auto.
Qed.

End Disciplined.

Lemma holding_app s m i a1 a2 : holding s m i a1 -> keeps_on s i m a2 -> holding s m i (a1 ++ a2).
Proof.
  intros (b1 & b2 & x & -> & Hc & [K1 K2] & (c1 & c2 & r & -> & Hx) & Gx) [L1 L2]. exists b1, ((c1 ++ ADeliver s :: c2) ++ a2), x.
  split; [rewrite <- app_assoc; reflexivity|]. split; [exact Hc|]. split.
  - split; [intros X; apply in_app_or in X; tauto|]. intros u X. apply in_app_or in X. destruct X; auto.
  - split; [|exact Gx]. exists c1, (c2 ++ a2), r. split; [rewrite <- app_assoc; reflexivity|exact Hx].
Qed.
