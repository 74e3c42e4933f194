(** * NetworkLive: requests are not lost between client and router. *)
From Coq Require Import String Ascii List ZArith Bool Lia Permutation.
From Verif Require Import PyBase Messages IdGen DictFacts SpecHistory Session SpecSession SessionRun SessionFacts Joiner.
From Verif Require Import Broker SpecBroker BrokerRun BrokerFacts Dealer SpecDealer DealerRun DealerFacts Network SpecNetwork NetworkFacts NetworkInv.
Import ListNotations.
Local Open Scope string_scope.
Local Open Scope Z_scope.
Local Open Scope list_scope.

(** Kinds of request the router always answers (it may refuse UNSUBSCRIBE and UNREGISTER silently). *)
Definition keeps (k : request_kind) : bool := match k with RUnsub | RUnreg => false | _ => true end.

Lemma CI_deliver_out hf used c U P m D K : CI hf used c U P (m :: D) K ->
  forall k x, in_half hf k = true ->
    (In x (outstanding k (fst (receive_message c m))) <-> In x (outstanding k c) /\ down_req k m <> Some x) /\
    (forall r, down_req k m = Some r -> snd (receive_message c m) = Ok m).
Proof.
  intros J k x Hk. pose proof (ci_down _ _ _ _ _ _ _ J) as R. apply Forall_cons_iff in R. destruct R as [R RD].
  destruct (CI_deliver _ _ _ _ _ _ _ _ J) as [_ Hok].
  destruct (ci_sess _ _ _ _ _ _ _ J) as [sh S].
  destruct (message_half m) as [hf'|] eqn:Hm.
  2:{ destruct m; cbn [router_msg] in R; try contradiction; discriminate. }
  assert (Hd : hf' = hf \/ hf' <> hf) by (destruct hf, hf'; auto; right; discriminate).
  destruct Hd as [->|Hne].
  - specialize (Hok eq_refl). split; [|auto].
    pose proof (ci_good _ _ _ _ _ _ _ J) as G. cbn [map] in G.
    destruct (receive_mine hf c sh m S R Hm) as (c' & E & F1 & _).
    + intros k' r Hk' Hr. apply (ci_out _ _ _ _ _ _ _ J k' r Hk'). unfold obl. apply in_or_app. right. apply in_or_app. right.
      cbn [omap]. rewrite Hr. left. reflexivity.
    + destruct (eff_of hf m) as [g|r|g|]; cbn [good] in G; auto.
      * destruct G as (g & H1 & H2 & _). eauto.
      * tauto.
    + rewrite E. cbn [fst]. apply F1. exact Hk.
  - destruct (receive_foreign hf c m R) as (F1 & _ & _ & _ & F5); [congruence|]. rewrite F1, F5 by exact Hk.
    split; [|discriminate]. split; [intros H; split; [exact H|discriminate]|tauto].
Qed.

Lemma send_raises_req c m c' e k : send_track c m = (c', Raise e) -> up_req k m = None.
Proof.
  destruct m; cbn [send_track]; intros H; try discriminate; try reflexivity.
  destruct (truthy _); discriminate.
Qed.

(** [Gd]: the sessions that keep to the rules. *)
Section Disciplined.
Variable Gd : Z -> Prop.
Local Notation NInv := (NInv Gd).
Local Notation allowed := (allowed Gd).

(** ** Calls: the dealer's table of open calls *)
Record CallInv (acts : list action) (n : net) : Prop := {
  ca_new : forall s cl r, Gd s -> zget s (nt_clients n) = Some cl -> zzmem (s, r) (d_call_ids (nt_dealer n)) = true ->
    ~ In r (omap (up_req RCall) (cl_up cl));
  ca_sent : forall s cl r, Gd s -> zget s (nt_clients n) = Some cl -> zzmem (s, r) (d_call_ids (nt_dealer n)) = true ->
    sent_now s RCall r acts;
  ca_known : forall s r, zzmem (s, r) (d_call_ids (nt_dealer n)) = true -> In s (joined acts);
  ca_pending : forall i inv, zget i (d_pending (nt_dealer n)) = Some inv -> Gd (pi_caller inv) -> connected (pi_caller inv) n = true ->
    zzmem (pi_caller inv, pyint_Z (pi_request inv)) (d_call_ids (nt_dealer n)) = true }.

Lemma zzget_zzset k v (d : list ((Z * Z) * Z)) k' : zzget k' (zzset k v d) = if zz_eqb k' k then Some v else zzget k' d.
Proof. apply dget_dset. exact zz_eqb_ok. Qed.
Lemma zzget_zzdel k (d : list ((Z * Z) * Z)) k' : NoDup (map fst d) -> zzget k' (zzdel k d) = if zz_eqb k' k then None else zzget k' d.
Proof. apply dget_ddel. exact zz_eqb_ok. Qed.
Lemma zzmem_zzget k (d : list ((Z * Z) * Z)) : zzmem k d = match zzget k d with Some _ => true | None => false end.
Proof. reflexivity. Qed.

Lemma omap_in {A B} (f : A -> option B) l y : In y (omap f l) <-> exists x, In x l /\ f x = Some y.
Proof.
  induction l as [|x l IH]; cbn [omap In]; [split; [tauto|intros (x & [] & _)]|].
  destruct (f x) as [z|] eqn:E; cbn [In]; rewrite ?IH; split.
  - intros [->|(x' & H1 & H2)]; eauto.
  - intros (x' & [->|H1] & H2); [left; congruence|right; eauto].
  - intros (x' & H1 & H2). eauto.
  - intros (x' & [->|H1] & H2); [congruence|eauto].
Qed.

(** What one routed message does to the table of open calls. *)
Lemma route_calls b d s m b' d' posts : DInv1 d -> route b d s m = (b', d', posts) ->
  (forall s' r, zzmem (s', r) (d_call_ids d') = true -> zzmem (s', r) (d_call_ids d) = true \/
     (s' = s /\ up_req RCall m = Some r)) /\
  (forall i inv, zget i (d_pending d') = Some inv ->
     (zget i (d_pending d) = Some inv \/ zzmem (pi_caller inv, pyint_Z (pi_request inv)) (d_call_ids d') = true) /\
     (zget i (d_pending d) = Some inv -> zzmem (pi_caller inv, pyint_Z (pi_request inv)) (d_call_ids d) = true ->
      NoDup (pend d (pi_caller inv)) ->
      zzmem (pi_caller inv, pyint_Z (pi_request inv)) (d_call_ids d') = true)).
Proof.
  intros J1 Hr.
  destruct (for_dealer m) eqn:Hg.
  2:{ assert (d' = d).
      { destruct m; try discriminate; cbn [route] in Hr; try (injection Hr as <- <- <-; reflexivity).
        - destruct (b_receive_publish _ _ _). injection Hr as <- <- <-. reflexivity.
        - destruct (b_receive_message _ _ _). injection Hr as <- <- <-. reflexivity.
        - destruct (b_receive_message _ _ _). injection Hr as <- <- <-. reflexivity. }
      subst d'. split; [auto|]. intros i inv G. split; auto. }
  assert (E : exists r, d_receive_message d s m = (d', r)).
  { destruct m; try discriminate; cbn [route] in Hr;
      match type of Hr with context [d_receive_message d s ?x] => destruct (d_receive_message d s x) as [d1 r1] end;
      injection Hr as <- <- <-; eauto. }
  clear Hr. destruct E as (r & E). pose proof (dstep_outcome d (DMsg s m) J1) as Od. cbn [dstep] in Od. rewrite E in Od. cbn [fst snd] in Od.
  destruct J1 as (W & O & SS). pose proof (de_pending _ SS) as Np. pose proof (de_calls _ SS) as Nc.
  assert (Same : d_call_ids d' = d_call_ids d -> (forall i inv, zget i (d_pending d') = Some inv -> zget i (d_pending d) = Some inv) ->
    (forall s' r, zzmem (s', r) (d_call_ids d') = true -> zzmem (s', r) (d_call_ids d) = true \/ (s' = s /\ up_req RCall m = Some r)) /\
    (forall i inv, zget i (d_pending d') = Some inv ->
     (zget i (d_pending d) = Some inv \/ zzmem (pi_caller inv, pyint_Z (pi_request inv)) (d_call_ids d') = true) /\
     (zget i (d_pending d) = Some inv -> zzmem (pi_caller inv, pyint_Z (pi_request inv)) (d_call_ids d) = true ->
      NoDup (pend d (pi_caller inv)) ->
      zzmem (pi_caller inv, pyint_Z (pi_request inv)) (d_call_ids d') = true))).
  { intros E1 E2. rewrite E1. split; [auto|]. intros i inv G. split; [left; auto|auto]. }
  destruct r as [rt|e]; cbn [d_out_of] in Od; inversion Od; try subst d'; subst; try (apply Same; auto; fail).
  - (* fresh call *) cbn [add_call set_dcalls set_dpending set_didgen d_pending d_call_ids]. split.
    + intros s' r. rewrite !zzmem_zzget, zzget_zzset. destruct (zz_eqb (s', r) (s, pyint_Z (ca_request m0))) eqn:Q; [|auto].
      intros _. right. apply zz_eqb_ok in Q. injection Q as -> ->. split; reflexivity.
    + intros i inv. rewrite zget_zset. destruct (Z.eqb_spec i id) as [->|].
      * intros H. injection H as <-. cbn [pi_caller pi_request].
        assert (X : zzmem (s, pyint_Z (ca_request m0)) (zzset (s, pyint_Z (ca_request m0)) id (d_call_ids d)) = true).
        { rewrite zzmem_zzget, zzget_zzset. replace (zz_eqb _ _) with true; [reflexivity|]. symmetry. apply zz_eqb_ok. reflexivity. }
        auto.
      * intros G. split; [auto|]. intros _ H _. rewrite zzmem_zzget, zzget_zzset. destruct (zz_eqb _ _); [reflexivity|exact H].
  - (* last result *) cbn [set_dcalls set_dpending d_pending d_call_ids]. split.
    + intros s' r. rewrite !zzmem_zzget, zzget_zzdel by exact Nc. destruct (zz_eqb _ _); [discriminate|auto].
    + intros i inv'. rewrite zget_zdel by exact Np. destruct (Z.eqb_spec i (pyint_Z (yi_request m0))) as [->|Hne]; [discriminate|].
      intros G. split; [auto|]. intros _ H Nd. rewrite zzmem_zzget, zzget_zzdel by exact Nc.
      destruct (zz_eqb _ _) eqn:Q; [|exact H]. exfalso. apply zz_eqb_ok in Q. injection Q as Q1 Q2.
      match goal with X : zget (pyint_Z (yi_request m0)) _ = Some inv |- _ => rename X into G2 end.
      pose proof (pend_zdel _ inv (pi_caller inv') _ G2) as Pm. rewrite Q1, Z.eqb_refl in Pm.
      rewrite <- Q1 in Pm. apply (Permutation_NoDup Pm) in Nd. inversion Nd as [|? ? Hni _]. subst. apply Hni.
      apply omap_in. exists (i, inv'). split.
      * apply (dget_In _ Zeqb_ok). change (zget i (zdel (pyint_Z (yi_request m0)) (d_pending d)) = Some inv').
        rewrite zget_zdel by exact Np. destruct (Z.eqb_spec i (pyint_Z (yi_request m0))); [contradiction|exact G].
      * unfold call_of. cbn [snd]. rewrite Z.eqb_refl, Q2. reflexivity.
  - (* unregistered *) apply Same; [assumption|]. intros i inv' G. congruence.
  - (* error *) apply Same; [reflexivity|]. intros i inv'. cbn [set_dpending d_pending]. rewrite zget_zdel by exact Np. destruct (i =? _); [discriminate|auto].
  - (* crash *) apply Same; [reflexivity|]. intros i inv'. cbn [set_dpending d_pending]. rewrite zget_zdel by exact Np. destruct (i =? _); [discriminate|auto].
Qed.

Lemma in_sent_by k x s s' m : In x (omap (up_req k) (sent_by s s' m)) <-> s' = s /\ up_req k m = Some x.
Proof.
  unfold sent_by. destruct (Z.eqb_spec s' s) as [->|]; cbn [omap].
  - destruct (up_req k m) as [y|]; cbn [In]; split; intuition congruence.
  - cbn. tauto.
Qed.

Lemma in_mail_down k x posts s' : In x (omap (down_req k) (mail posts s')) <->
  exists rt, In rt posts /\ rt_recipient rt = s' /\ down_req k (rt_message rt) = Some x.
Proof.
  rewrite omap_in. split.
  - intros (y & H1 & H2). apply in_mail in H1. destruct H1 as (rt & H3 & <- & H4). eauto.
  - intros (rt & H1 & <- & H2). exists (rt_message rt). split; [|exact H2]. unfold mail. apply in_map. apply filter_In.
    split; [exact H1|apply Z.eqb_refl].
Qed.

(** The broker answers every SUBSCRIBE and acknowledged PUBLISH of a member. *)
Lemma broker_keeps b d hb s m b' d' posts k x : BInv b hb -> zmem s (b_by_session b) = true ->
  route b d s m = (b', d', posts) -> in_half PubSub k = true -> keeps k = true -> up_req k m = Some x ->
  exists rt, In rt posts /\ rt_recipient rt = s /\ down_req k (rt_message rt) = Some x.
Proof.
  intros J Hm Hr Hk Hkeep Hu. rewrite zmem_zget in Hm. destruct k; try discriminate.
  - destruct m as [m|m|m|m|m|m|m|m|m|m|m|m|m|m|m|m|m|m|m|m|m|m|m|m]; cbn [up_req asks kind_eqb] in Hu; try discriminate.
    { destruct (acknowledged m); discriminate. }
    injection Hu as <-. cbn [route] in Hr. pose proof (bstep_outcome b (BMsg s (Subscribe m)) (proj1 J)) as Ho. cbn [bstep] in Ho.
    destruct (b_receive_message b s (Subscribe m)) as [b1 r1]. injection Hr as <- <- <-. cbn [fst snd] in Ho.
    destruct r1 as [rt|e]; cbn [out_of] in Ho; inversion Ho; subst; try congruence.
    + eexists. split; [left; reflexivity|]. split; reflexivity.
    + eexists. split; [left; reflexivity|]. split; reflexivity.
    + match goal with X : zget s _ = None |- _ => rewrite X in Hm end. discriminate.
  - destruct m as [m|m|m|m|m|m|m|m|m|m|m|m|m|m|m|m|m|m|m|m|m|m|m|m]; cbn [up_req asks kind_eqb] in Hu; try discriminate.
    destruct (acknowledged m) eqn:A; [|discriminate].
    injection Hu as <-. cbn [route] in Hr. pose proof (bstep_outcome b (BPub s m) (proj1 J)) as Ho. cbn [bstep] in Ho.
    destruct (b_receive_publish b s m) as [b1 r1]. injection Hr as <- <- <-. cbn [fst snd] in Ho.
    destruct r1 as [rt|e]; cbn [out_of] in Ho; inversion Ho; subst.
    + cbn [pu_ack]. unfold acknowledged in A. rewrite A. eexists. split; [left; reflexivity|]. split; reflexivity.
    + match goal with X : zget s _ = None |- _ => rewrite X in Hm end. discriminate.
Qed.

(** The dealer answers every REGISTER of a member, and keeps or answers every CALL. *)
Lemma dealer_keeps b d hd s m b' d' posts k x s' : DInv d hd -> d_ids_issued hd < ID_MAX -> zmem s (d_by_session d) = true ->
  (forall c, s' = s -> m = Call c -> zzmem (s, pyint_Z (ca_request c)) (d_call_ids d) = false) ->
  (forall i inv, zget i (d_pending d) = Some inv -> pi_caller inv = s' ->
     zzmem (s', pyint_Z (pi_request inv)) (d_call_ids d) = true) ->
  route b d s m = (b', d', posts) -> in_half Rpc k = true -> keeps k = true ->
  (s' = s /\ up_req k m = Some x) \/ In x (pk k (pend d s')) ->
  In x (pk k (pend d' s')) \/ exists rt, In rt posts /\ rt_recipient rt = s' /\ down_req k (rt_message rt) = Some x.
Proof.
  intros J L Hm Hc Hp Hr Hk Hkeep Hx. rewrite zmem_zget in Hm.
  destruct (for_dealer m) eqn:Hg.
  2:{ assert (d' = d /\ up_req k m = None).
      { destruct m; try discriminate; cbn [route] in Hr; destruct k; try discriminate; cbn [up_req asks kind_eqb];
          try (injection Hr as <- <- <-; split; reflexivity).
        all: try (destruct (b_receive_message _ _ _); injection Hr as <- <- <-; split; reflexivity).
        all: destruct (b_receive_publish _ _ _); injection Hr as <- <- <-; split; [reflexivity|destruct (acknowledged m); reflexivity]. }
      destruct H as [-> E]. destruct Hx as [[_ H]|H]; [congruence|auto]. }
  assert (E : exists r, d_receive_message d s m = (d', r) /\ posts = match r with Ok rt => [rt] | Raise _ => [] end).
  { destruct m; try discriminate; cbn [route] in Hr;
      match type of Hr with context [d_receive_message d s ?x] => destruct (d_receive_message d s x) as [d1 r1] end;
      injection Hr as <- <- <-; eauto. }
  clear Hr. destruct E as (r & E & ->). pose proof (dstep_outcome d (DMsg s m) (proj1 J)) as Od. cbn [dstep] in Od. rewrite E in Od. cbn [fst snd] in Od.
  pose proof J as (J1 & _ & _ & T). specialize (T ltac:(lia)). pose proof J1 as (W & O & SS).
  assert (Answer : forall i inv, zget i (d_pending d) = Some inv -> d_pending d' = zdel i (d_pending d) ->
    In x (pk k (pend d s')) ->
    (forall k, in_half Rpc k = true -> keeps k = true -> match r with Ok rt => rt_recipient rt = pi_caller inv /\
       down_req k (rt_message rt) = if kind_eqb k RCall then Some (pyint_Z (pi_request inv)) else None | Raise _ => pi_caller inv <> s' end) ->
    In x (pk k (pend d' s')) \/ exists rt, In rt (match r with Ok rt => [rt] | Raise _ => [] end) /\ rt_recipient rt = s' /\ down_req k (rt_message rt) = Some x).
  { intros i inv G E' Hin HA. unfold pk in *. destruct (kind_eqb k RCall) eqn:Ek; [|destruct Hin].
    unfold pend in *. rewrite E'. pose proof (pend_zdel i inv s' _ G) as Pm. apply (Permutation_in _ Pm) in Hin. apply in_app_or in Hin.
    destruct Hin as [Hin|Hin]; [|auto]. destruct (Z.eqb_spec (pi_caller inv) s') as [Ec|]; [|destruct Hin]. destruct Hin as [<-|[]].
    specialize (HA k Hk Hkeep). destruct r as [rt|e]; [|contradiction]. destruct HA as [H1 H2]. rewrite Ek in H2. right. exists rt.
    split; [left; reflexivity|]. split; congruence. }
  assert (SameP : d_pending d' = d_pending d -> up_req k m = None ->
    In x (pk k (pend d' s')) \/ exists rt, In rt (match r with Ok rt => [rt] | Raise _ => [] end) /\ rt_recipient rt = s' /\ down_req k (rt_message rt) = Some x).
  { intros E' Hn. left. unfold pend. rewrite E'. destruct Hx as [[_ H]|H]; [congruence|exact H]. }
  assert (Reply : d_pending d' = d_pending d -> match r with Ok rt => rt_recipient rt = s /\ down_req k (rt_message rt) = up_req k m | Raise _ => False end ->
    In x (pk k (pend d' s')) \/ exists rt, In rt (match r with Ok rt => [rt] | Raise _ => [] end) /\ rt_recipient rt = s' /\ down_req k (rt_message rt) = Some x).
  { intros E' HA. destruct Hx as [[-> H]|H].
    - right. destruct r as [rt|e]; [|contradiction]. destruct HA as [H1 H2]. exists rt. split; [left; reflexivity|]. split; congruence.
    - left. unfold pend. rewrite E'. exact H. }
  assert (NoUp : (exists y, m = Yield y) \/ (exists y, m = Error y) -> up_req k m = None).
  { intros [[z ->]|[z ->]]; reflexivity. }
  destruct r as [rt|e]; cbn [d_out_of] in Od; inversion Od; try subst d'; subst.
  - (* no such procedure *) apply Reply; [reflexivity|]. split; [reflexivity|]. destruct k; try discriminate; reflexivity.
  - (* fresh call *) left. unfold pk in *. destruct k; try discriminate; cbn [kind_eqb] in *.
    { destruct Hx as [[_ H]|[]]. discriminate. }
    unfold pend at 1. cbn [add_call set_dcalls set_dpending set_didgen d_pending].
    assert (Hfree : zget id (d_pending d) = None).
    { match goal with X : next_id _ = _ |- _ => rename X into N end.
      destruct (zget id (d_pending d)) as [y|] eqn:Gx; [|reflexivity]. exfalso. apply (dt_pending _ _ T) in Gx.
      pose proof (dt_gen _ _ T) as Gg. unfold next_id in N. destruct (Z.eqb_spec (d_idgen d) ID_MAX) as [Eq|Eq]; [lia|].
      injection N as _ <-. lia. }
    rewrite pend_zset by exact Hfree. cbn [pi_caller pi_request]. apply in_or_app. destruct Hx as [[-> H]|H]; [right|auto].
    rewrite Z.eqb_refl. cbn [up_req asks kind_eqb] in H. injection H as <-. left. reflexivity.
  - (* chunk *) destruct Hx as [[Hs _]|Hx]; [exfalso|left; exact Hx]. specialize (Hc _ Hs eq_refl). rewrite zzmem_zzget in Hc.
    match goal with X : zzget _ _ = Some _ |- _ => rewrite X in Hc end. discriminate.
  - (* more *) apply SameP; reflexivity.
  - (* last *) destruct Hx as [[_ H]|Hx]; [rewrite NoUp in H; [discriminate|eauto]|]. eapply Answer; [eassumption|reflexivity|exact Hx|].
    intros k' Hk' _. split; [reflexivity|]. destruct k'; try discriminate; reflexivity.
  - (* held *) apply Reply; [reflexivity|]. split; [reflexivity|]. destruct k; try discriminate; reflexivity.
  - (* registered *) apply Reply; [reflexivity|]. split; [reflexivity|]. destruct k; try discriminate; reflexivity.
  - (* unregistered *) apply Reply; [assumption|]. split; [reflexivity|]. destruct k; try discriminate; reflexivity.
  - (* error *) destruct Hx as [[_ H]|Hx]; [rewrite NoUp in H; [discriminate|eauto]|]. eapply Answer; [eassumption|reflexivity|exact Hx|].
    intros k' Hk' _. split; [reflexivity|]. destruct k'; try discriminate; reflexivity.
  - (* bad yield *) apply SameP; reflexivity.
  - (* crash *) destruct Hx as [[_ H]|Hx]; [rewrite NoUp in H; [discriminate|eauto]|]. eapply Answer; [eassumption|reflexivity|exact Hx|].
    intros k' Hk' _. intros Ec. match goal with X : zget _ (d_pending d) = Some inv |- _ => specialize (Hp _ _ X Ec) end. subst s'. congruence.
  - match goal with X : zget s _ = None |- _ => rewrite X in Hm end. discriminate.
  - apply SameP; [reflexivity|]. destruct k; try discriminate; reflexivity.
  - apply SameP; [reflexivity|]. destruct k; reflexivity.
  - destruct m; try contradiction; discriminate.
Qed.

(** ** The whole network *)
Definition asked (s : Z) (m : message) (acts : list action) : Prop :=
  exists before between, acts = before ++ ASend s m :: between /\ ~ In (ALeave s) between /\ connected s (fst (nrun before)) = true.

Record LInv (hf : half) (acts : list action) (n : net) (t : ntrace) : Prop := {
  li_keep : forall s cl k r, Gd s -> zget s (nt_clients n) = Some cl -> in_half hf k = true -> keeps k = true ->
    In r (outstanding k (cl_session cl)) -> In r (obl k (cl_up cl) (pend (nt_dealer n) s) (cl_down cl));
  li_calls : hf = Rpc -> CallInv acts n;
  li_asked : forall s m k r, Gd s -> asked s m acts -> in_half hf k = true -> up_req k m = Some r ->
    exists cl, zget s (nt_clients n) = Some cl /\
      (In r (outstanding k (cl_session cl)) \/ exists x, In (ADeliver s, Delivered x (Ok x)) t /\ down_req k x = Some r) }.

Lemma asked_snoc s m acts a : asked s m (acts ++ [a]) ->
  (a = ASend s m /\ connected s (fst (nrun acts)) = true) \/ (asked s m acts /\ a <> ALeave s).
Proof.
  intros (b & c & E & H1 & H2). destruct c as [|x c] using rev_ind.
  - apply app_inj_tail in E. destruct E as [-> ->]. auto.
  - clear IHc. right. change (ASend s m :: c ++ [x]) with ((ASend s m :: c) ++ [x]) in E. rewrite app_assoc in E.
    apply app_inj_tail in E. destruct E as [-> ->]. split.
    + exists b, c. split; [reflexivity|]. split; [|exact H2]. intros Hin. apply H1. apply in_or_app. auto.
    + intros ->. apply H1. apply in_or_app. right. left. reflexivity.
Qed.

Lemma connected_get s n : connected s n = true <-> exists cl, zget s (nt_clients n) = Some cl.
Proof. unfold connected. rewrite zmem_zget. destruct (zget s (nt_clients n)); split; eauto; [discriminate|intros [? [=]]]. Qed.

Lemma in_obl k U P D x : In x (obl k U P D) <-> In x (omap (up_req k) U) \/ In x (pk k P) \/ In x (omap (down_req k) D).
Proof. clear Gd. unfold obl, pk. rewrite !in_app_iff. tauto. Qed.

(** Steps in which no client's session and no link changes. *)
Lemma LInv_quiet hf acts a n t : LInv hf acts n t -> (forall s, a = ALeave s -> zget s (nt_clients n) = None) ->
  (forall s m, a = ASend s m -> connected s (fst (nrun acts)) = true -> forall k, in_half hf k = true -> up_req k m = None) ->
  forall o, LInv hf (acts ++ [a]) n ((a, o) :: t).
Proof.
  intros [K C A] Ha Hs o. split.
  - exact K.
  - intros E. destruct (C E) as [C1 C2 C3 C4]. split; auto.
    + intros s cl r Hg G H. apply sent_now_snoc; [eauto|]. intros ->. rewrite (Ha s eq_refl) in G. discriminate.
    + intros s r H. apply joined_mono. eauto.
  - intros s m k r Hg H Hk Hu. apply asked_snoc in H. destruct H as [[-> H]|[H Hne]].
    + rewrite (Hs s m eq_refl H k Hk) in Hu. discriminate.
    + destruct (A s m k r Hg H Hk Hu) as (cl & G & [H1|(x & H1 & H2)]); exists cl; split; auto. right. exists x. split; [right; exact H1|exact H2].
Qed.

Lemma CallInv_joined s r acts n : CallInv acts n -> zzmem (s, r) (d_call_ids (nt_dealer n)) = true -> In s (joined acts).
Proof. intros C. apply (ca_known _ _ C). Qed.

Lemma live_join hf acts n t det : NInv hf acts n -> LInv hf acts n t -> allowed hf (acts ++ [AJoin det]) -> n = fst (nrun acts) ->
  LInv hf (acts ++ [AJoin det]) (fst (nstep n (AJoin det))) ((AJoin det, snd (nstep n (AJoin det))) :: t).
Proof.
  intros J L A _. pose proof J as [(hb & Jb & Lb) (hd & Jd & Ld) Hnd Sb Sd Hcl Hup Hrp Hca Hj].
  assert (Q : LInv hf (acts ++ [AJoin det]) n ((AJoin det, Quiet) :: t)) by (apply LInv_quiet; [exact L|discriminate|discriminate]).
  cbn [nstep]. pose proof (bstep_outcome (nt_broker n) (BJoin det) (proj1 Jb)) as Ob.
  pose proof (dstep_outcome (nt_dealer n) (DJoin det) (proj1 Jd)) as Od. cbn [bstep dstep] in Ob, Od.
  destruct (b_add_session (nt_broker n) det) as [b' rb]. destruct (d_add_session (nt_dealer n) det) as [d' rd]. cbn [fst snd] in *.
  destruct rb as [ub|eb]; [|exact Q]. destruct rd as [ud|ed]; [|exact Q]. clear Q.
  cbn [out_of d_out_of] in *. set (s0 := pyint_Z (det_session det)) in *. cbn [fst snd].
  assert (Hfree : zget s0 (b_by_session (nt_broker n)) = None) by (inversion Ob; assumption).
  assert (Hp : d_pending d' = d_pending (nt_dealer n)) by (inversion Od; reflexivity).
  assert (Hc : d_call_ids d' = d_call_ids (nt_dealer n)) by (inversion Od; reflexivity). clear Ob Od.
  assert (Hnew : zget s0 (nt_clients n) = None).
  { apply (dmem_false _). change (zmem s0 (nt_clients n) = false). rewrite <- Sb. apply (dmem_false _). exact Hfree. }
  destruct L as [K C As]. split; cbn [nt_clients nt_dealer].
  - intros s cl k r Hg. rewrite zget_zset. unfold pend. rewrite Hp. destruct (Z.eqb_spec s s0) as [->|]; [|apply K; exact Hg].
    intros H. injection H as <-. intros _ _ Hin. exfalso. destruct k; exact Hin.
  - intros E. destruct (C E) as [C1 C2 C3 C4].
    assert (Hf : Gd s0 -> ~ In s0 (joined acts)).
    { intros Hg. destruct A as (_ & D). destruct (D s0 Hg) as (_ & F). destruct (F E) as [F' _]. exact (first_join _ _ F'). }
    split; cbn [nt_clients nt_dealer]; rewrite ?Hc, ?Hp.
    + intros s cl r Hg. rewrite zget_zset. destruct (s =? s0); [|apply C1; exact Hg]. intros H. injection H as <-. cbn. tauto.
    + intros s cl r Hg. rewrite zget_zset. destruct (Z.eqb_spec s s0) as [->|].
      * intros _ H. exfalso. apply (Hf Hg). exact (C3 s0 r H).
      * intros G H. apply sent_now_snoc; [eauto|discriminate].
    + intros s r H. apply joined_mono. eauto.
    + intros i inv G Hg H. apply C4 with (i := i); [exact G|exact Hg|]. apply connected_get. apply connected_get in H. destruct H as [cl H].
      cbn [nt_clients] in H. rewrite zget_zset in H. destruct (Z.eqb_spec (pi_caller inv) s0) as [E'|]; [|eauto].
      exfalso. rewrite E' in Hg. apply (Hf Hg). rewrite <- E'. exact (Hca i inv G).
  - intros s m k r Hg H Hk Hu. apply asked_snoc in H. destruct H as [[H _]|[H _]]; [discriminate|].
    destruct (As s m k r Hg H Hk Hu) as (cl & G & Hx). exists cl. split.
    + rewrite zget_zset. destruct (Z.eqb_spec s s0) as [->|]; [congruence|exact G].
    + destruct Hx as [Hx|(x & H1 & H2)]; [auto|]. right. exists x. split; [right; exact H1|exact H2].
Qed.

Lemma live_leave hf acts n t s0 : NInv hf acts n -> LInv hf acts n t ->
  LInv hf (acts ++ [ALeave s0]) (fst (nstep n (ALeave s0))) ((ALeave s0, snd (nstep n (ALeave s0))) :: t).
Proof.
  intros J L. pose proof J as [(hb & Jb & Lb) (hd & Jd & Ld) Hnd Sb Sd Hcl Hup Hrp Hca Hj].
  cbn [nstep]. pose proof (bstep_outcome (nt_broker n) (BLeave s0) (proj1 Jb)) as Ob.
  pose proof (dstep_outcome (nt_dealer n) (DLeave s0) (proj1 Jd)) as Od. cbn [bstep dstep] in Ob, Od.
  destruct (b_remove_session (nt_broker n) s0) as [b' rb]. destruct (d_remove_session (nt_dealer n) s0) as [d' rd]. cbn [fst snd] in *.
  destruct (zget s0 (nt_clients n)) as [cl0|] eqn:G0.
  2:{ assert (N1 : zget s0 (b_by_session (nt_broker n)) = None).
      { apply (dmem_false _). change (zmem s0 (b_by_session (nt_broker n)) = false). rewrite Sb. apply (dmem_false _). exact G0. }
      destruct rb as [ub|eb]; cbn [out_of] in Ob; inversion Ob; try congruence.
      destruct rd; apply LInv_quiet; try exact L; try discriminate; intros s9 E9; injection E9 as <-; exact G0. }
  assert (M1 : zmem s0 (b_by_session (nt_broker n)) = true) by (rewrite Sb, zmem_zget, G0; reflexivity).
  assert (M2 : zmem s0 (d_by_session (nt_dealer n)) = true) by (rewrite Sd, zmem_zget, G0; reflexivity).
  rewrite zmem_zget in M1, M2.
  destruct rb as [ub|eb]; cbn [out_of] in Ob; inversion Ob; subst; [|match goal with X : zget s0 _ = None |- _ => rewrite X in M1; discriminate end].
  destruct rd as [ud|ed]; cbn [d_out_of] in Od; inversion Od; subst; [|match goal with X : zget s0 _ = None |- _ => rewrite X in M2; discriminate end].
  cbn [fst snd].
  match goal with X : d_pending d' = _ |- _ => rename X into Hp end.
  match goal with X : d_call_ids d' = _ |- _ => rename X into Hc end.
  destruct L as [K C As]. split; cbn [nt_clients nt_dealer].
  - intros s cl k r Hg. rewrite zget_zdel by exact Hnd. unfold pend. rewrite Hp. destruct (Z.eqb_spec s s0) as [->|]; [discriminate|apply K; exact Hg].
  - intros E. destruct (C E) as [C1 C2 C3 C4]. split; cbn [nt_clients nt_dealer]; rewrite ?Hc, ?Hp.
    + intros s cl r Hg. rewrite zget_zdel by exact Hnd. destruct (s =? s0); [discriminate|apply C1; exact Hg].
    + intros s cl r Hg. rewrite zget_zdel by exact Hnd. destruct (Z.eqb_spec s s0) as [->|]; [discriminate|].
      intros G Hx. apply sent_now_snoc; [eauto|congruence].
    + intros s r Hx. apply joined_mono. eauto.
    + intros i inv G Hg Hx. apply C4 with (i := i); [exact G|exact Hg|]. apply connected_get. apply connected_get in Hx. destruct Hx as [cl Hx].
      cbn [nt_clients] in Hx. rewrite zget_zdel in Hx by exact Hnd. destruct (pi_caller inv =? s0); [discriminate|eauto].
  - intros s m k r Hg Hx Hk Hu. apply asked_snoc in Hx. destruct Hx as [[Hx _]|[Hx Hne]]; [discriminate|].
    destruct (As s m k r Hg Hx Hk Hu) as (cl & G & Hy). exists cl. split.
    + rewrite zget_zdel by exact Hnd. destruct (Z.eqb_spec s s0) as [->|]; [congruence|exact G].
    + destruct Hy as [Hy|(x & X1 & X2)]; [auto|]. right. exists x. split; [right; exact X1|exact X2].
Qed.

Lemma live_send hf acts n t s0 m0 : NInv hf acts n -> LInv hf acts n t -> allowed hf (acts ++ [ASend s0 m0]) -> n = fst (nrun acts) ->
  LInv hf (acts ++ [ASend s0 m0]) (fst (nstep n (ASend s0 m0))) ((ASend s0 m0, snd (nstep n (ASend s0 m0))) :: t).
Proof.
  intros J L A En. cbn [nstep]. destruct (zget s0 (nt_clients n)) as [cl0|] eqn:G0.
  2:{ apply LInv_quiet; [exact L|discriminate|]. intros s m E. injection E as <- <-. rewrite <- En. intros H. exfalso.
      apply connected_get in H. destruct H as [cl H]. congruence. }
  destruct (send_track (cl_session cl0) m0) as [c' r] eqn:E. cbn [fst snd].
  destruct r as [[]|e].
  2:{ pose proof (fun k => send_raises_req _ _ _ _ k E) as Hn. apply send_raises in E. subst c'. destruct cl0 as [c U D]. cbn [cl_session cl_up cl_down].
      unfold zset. rewrite (dset_same _) by exact G0. destruct n as [cs b d]. apply LInv_quiet; [exact L|discriminate|].
      intros s m Ex. injection Ex as <- <-. intros _ k _. apply Hn. }
  destruct (send_fields _ _ _ E) as (F1 & _ & _). destruct L as [K C As]. split; cbn [nt_clients nt_dealer].
  - intros s cl k r Hg. rewrite zget_zset. destruct (Z.eqb_spec s s0) as [->|]; [|apply K; exact Hg].
    intros H. injection H as <-. cbn [cl_session cl_up cl_down]. intros Hk Hkeep Hin. apply F1 in Hin. apply in_obl. rewrite omap_app. cbn [omap].
    destruct Hin as [Hin|Hin].
    + left. rewrite Hin. apply in_or_app. right. left. reflexivity.
    + specialize (K s0 cl0 k r Hg G0 Hk Hkeep Hin). apply in_obl in K. destruct K as [K|K]; [left; apply in_or_app; auto|tauto].
  - intros Eh. destruct (C Eh) as [C1 C2 C3 C4]. split; cbn [nt_clients nt_dealer].
    + intros s cl r Hg. rewrite zget_zset. destruct (Z.eqb_spec s s0) as [->|]; [|apply C1; exact Hg].
      intros H. injection H as <-. cbn [cl_up]. intros Hz Hin. rewrite omap_app in Hin. apply in_app_or in Hin.
      destruct Hin as [Hin|Hin]; [exact (C1 s0 cl0 r Hg G0 Hz Hin)|]. cbn [omap] in Hin.
      destruct (up_req RCall m0) as [r'|] eqn:Hu; [|destruct Hin]. destruct Hin as [->|[]].
      destruct (C2 s0 cl0 r Hg G0 Hz) as (b & m & c & -> & H1 & H2). destruct A as (_ & D). destruct (D s0 Hg) as ((_ & A) & _). apply H2.
      apply (A b m c m0 [] RCall r); [rewrite <- app_assoc; reflexivity|subst hf; reflexivity|exact H1|apply up_req_asks; exact Hu].
    + intros s cl r Hg. rewrite zget_zset. intros G H. apply sent_now_snoc; [|discriminate]. destruct (Z.eqb_spec s s0) as [->|]; eauto.
    + intros s r H. apply joined_mono. eauto.
    + intros i inv G Hg H. apply C4 with (i := i); [exact G|exact Hg|]. unfold connected in *. cbn [nt_clients] in H. rewrite <- H.
      symmetry. eapply zmem_zset_same. exact G0.
  - intros s m k r Hg H Hk Hu. apply asked_snoc in H. destruct H as [[H _]|[H _]].
    + injection H as <- <-. eexists. split; [rewrite zget_zset, Z.eqb_refl; reflexivity|]. cbn [cl_session]. left. apply F1. auto.
    + destruct (As s m k r Hg H Hk Hu) as (cl & G & Hx). rewrite zget_zset. destruct (Z.eqb_spec s s0) as [->|].
      * eexists. split; [reflexivity|]. cbn [cl_session]. replace cl with cl0 in Hx by congruence.
        destruct Hx as [Hx|(x & H1 & H2)]; [left; apply F1; auto|]. right. exists x. split; [right; exact H1|exact H2].
      * exists cl. split; [exact G|]. destruct Hx as [Hx|(x & H1 & H2)]; [auto|]. right. exists x. split; [right; exact H1|exact H2].
Qed.

Lemma live_put hf acts n t s0 m0 : LInv hf acts n t -> ~ Gd s0 ->
  LInv hf (acts ++ [APut s0 m0]) (fst (nstep n (APut s0 m0))) ((APut s0 m0, snd (nstep n (APut s0 m0))) :: t).
Proof.
  intros L A. cbn [nstep]. assert (Q : forall o, LInv hf (acts ++ [APut s0 m0]) n ((APut s0 m0, o) :: t)).
  { apply LInv_quiet; [exact L|discriminate|discriminate]. }
  destruct (zget s0 (nt_clients n)) as [cl0|] eqn:G0; [|apply Q]. cbn [fst snd]. destruct (Q Quiet) as [K C As].
  assert (Z0 : forall s cl, Gd s -> zget s (zset s0 (mkClient (cl_session cl0) (cl_up cl0 ++ [m0]) (cl_down cl0)) (nt_clients n)) = Some cl -> zget s (nt_clients n) = Some cl).
  { intros s cl Hg. rewrite zget_zset. destruct (Z.eqb_spec s s0) as [->|]; [contradiction|auto]. }
  split; cbn [nt_clients nt_dealer].
  - intros s cl k r Hg G. apply (K s cl k r Hg). exact (Z0 _ _ Hg G).
  - intros Eh. destruct (C Eh) as [C1 C2 C3 C4]. split; cbn [nt_clients nt_dealer]; auto.
    + intros s cl r Hg G. exact (C1 s cl r Hg (Z0 _ _ Hg G)).
    + intros s cl r Hg G. exact (C2 s cl r Hg (Z0 _ _ Hg G)).
    + intros i inv G Hg H. apply C4 with (i := i); [exact G|exact Hg|]. unfold connected in *. cbn [nt_clients] in H. rewrite <- H.
      symmetry. eapply zmem_zset_same. exact G0.
  - intros s m k r Hg H Hk Hu. destruct (As s m k r Hg H Hk Hu) as (cl & G & Hx). exists cl. split; [|exact Hx].
    rewrite zget_zset. destruct (Z.eqb_spec s s0) as [->|]; [contradiction|exact G].
Qed.

Lemma live_deliver hf acts n t s0 : NInv hf acts n -> LInv hf acts n t ->
  LInv hf (acts ++ [ADeliver s0]) (fst (nstep n (ADeliver s0))) ((ADeliver s0, snd (nstep n (ADeliver s0))) :: t).
Proof.
  intros J L. cbn [nstep]. assert (Q : forall o, LInv hf (acts ++ [ADeliver s0]) n ((ADeliver s0, o) :: t)).
  { apply LInv_quiet; [exact L|discriminate|discriminate]. }
  destruct (zget s0 (nt_clients n)) as [[c U [|m0 D]]|] eqn:G0; try apply Q. clear Q.
  pose proof (fun Hg => CI_deliver_out _ _ _ _ _ _ _ _ (ni_cl _ _ _ _ J s0 _ Hg G0)) as F. cbn [cl_session cl_up cl_down] in F.
  destruct (receive_message c m0) as [c' r0] eqn:E. cbn [fst snd] in *. destruct L as [K C As]. split; cbn [nt_clients nt_dealer].
  - intros s cl k r Hg. rewrite zget_zset. destruct (Z.eqb_spec s s0) as [->|]; [|apply K; exact Hg].
    intros H. injection H as <-. cbn [cl_session cl_up cl_down]. intros Hk Hkeep Hin. apply (F Hg k r Hk) in Hin. destruct Hin as [Hin Hne].
    specialize (K s0 _ k r Hg G0 Hk Hkeep Hin). apply in_obl in K. apply in_obl. cbn [cl_up cl_down omap] in K.
    destruct (down_req k m0) as [y|]; [|exact K]. cbn [In] in K. destruct K as [K|[K|[K|K]]]; auto. congruence.
  - intros Eh. destruct (C Eh) as [C1 C2 C3 C4]. split; cbn [nt_clients nt_dealer].
    + intros s cl r Hg. rewrite zget_zset. destruct (Z.eqb_spec s s0) as [->|]; [|apply C1; exact Hg].
      intros H. injection H as <-. cbn [cl_up]. exact (C1 s0 _ r Hg G0).
    + intros s cl r Hg. rewrite zget_zset. intros G H. apply sent_now_snoc; [|discriminate]. destruct (Z.eqb_spec s s0) as [->|]; eauto.
    + intros s r H. apply joined_mono. eauto.
    + intros i inv G Hg H. apply C4 with (i := i); [exact G|exact Hg|]. unfold connected in *. cbn [nt_clients] in H. rewrite <- H.
      symmetry. eapply zmem_zset_same. exact G0.
  - intros s m k r Hg H Hk Hu. apply asked_snoc in H. destruct H as [[H _]|[H _]]; [discriminate|].
    destruct (As s m k r Hg H Hk Hu) as (cl & G & Hx). rewrite zget_zset. destruct (Z.eqb_spec s s0) as [->|].
    + eexists. split; [reflexivity|]. cbn [cl_session]. replace cl with (mkClient c U (m0 :: D)) in Hx by congruence. cbn [cl_session] in Hx.
      destruct Hx as [Hx|(x & H1 & H2)]; [|right; exists x; split; [right; exact H1|exact H2]].
      destruct (F Hg k r Hk) as [F1 F2]. destruct (down_req k m0) as [y|] eqn:Hd.
      * destruct (Z.eq_dec y r) as [->|Hne].
        -- right. exists m0. split; [left; rewrite (F2 r eq_refl); reflexivity|exact Hd].
        -- left. apply F1. split; [exact Hx|congruence].
      * left. apply F1. split; [exact Hx|discriminate].
    + exists cl. split; [exact G|]. destruct Hx as [Hx|(x & H1 & H2)]; [auto|]. right. exists x. split; [right; exact H1|exact H2].
Qed.

Lemma NoDup_app_l {A} (l1 l2 : list A) : NoDup (l1 ++ l2) -> NoDup l1.
Proof. intros H. apply (NoDup_app_r l2). eapply Permutation_NoDup; [apply Permutation_app_comm|exact H]. Qed.

Lemma live_route hf acts n t s0 : NInv hf acts n -> LInv hf acts n t -> allowed hf (acts ++ [ARoute s0]) ->
  LInv hf (acts ++ [ARoute s0]) (fst (nstep n (ARoute s0))) ((ARoute s0, snd (nstep n (ARoute s0))) :: t).
Proof.
  intros J L A. cbn [nstep]. assert (Q : forall o, LInv hf (acts ++ [ARoute s0]) n ((ARoute s0, o) :: t)).
  { apply LInv_quiet; [exact L|discriminate|discriminate]. }
  destruct (zget s0 (nt_clients n)) as [[c [|m0 U] D]|] eqn:G0; try apply Q. clear Q.
  destruct (route (nt_broker n) (nt_dealer n) s0 m0) as [[b' d'] posts] eqn:R. cbn [fst snd].
  pose proof J as [(hb & Jb & Lb) (hd & Jd & Ld) Hnd Sb Sd Hcl Hup Hrp Hca Hj].
  assert (Ln : routings acts < ID_MAX) by (destruct A as [A _]; rewrite routings_snoc in A; cbn [is_route] in A; lia).
  assert (Mb : zmem s0 (b_by_session (nt_broker n)) = true) by (rewrite Sb, zmem_zget, G0; reflexivity).
  assert (Md : zmem s0 (d_by_session (nt_dealer n)) = true) by (rewrite Sd, zmem_zget, G0; reflexivity).
  destruct (route_calls _ _ _ _ _ _ _ (proj1 Jd) R) as [Rc1 Rc2].
  assert (Conn : forall s, connected s (mkNet (post posts (zset s0 (mkClient c U D) (nt_clients n))) b' d') = connected s n).
  { intros s. unfold connected. cbn [nt_clients]. rewrite !zmem_zget, zget_post, zget_zset. destruct (Z.eqb_spec s s0) as [->|]; [rewrite G0; reflexivity|].
    destruct (zget s (nt_clients n)); reflexivity. }
  destruct L as [K C As].
  assert (Keep : forall s k x, Gd s -> connected s n = true -> in_half hf k = true -> keeps k = true ->
    (s = s0 /\ up_req k m0 = Some x) \/ In x (pk k (pend (nt_dealer n) s)) ->
    In x (pk k (pend d' s)) \/ In x (omap (down_req k) (mail posts s))).
  { intros s k x Hg Hs Hk Hkeep Hx. rewrite in_mail_down. destruct hf.
    - right. destruct Hx as [[-> Hx]|Hx]; [eapply broker_keeps; eauto|]. destruct k; try discriminate; destruct Hx.
    - destruct (C eq_refl) as [C1 C2 C3 C4]. eapply (dealer_keeps _ _ hd); [exact Jd|lia|exact Md| | |exact R|exact Hk|exact Hkeep|exact Hx].
      + intros y -> ->. destruct (zzmem _ _) eqn:Z; [|reflexivity]. exfalso. apply (C1 s0 _ _ Hg G0 Z). cbn [cl_up omap up_req asks kind_eqb]. left. reflexivity.
      + intros i inv G <-. exact (C4 i inv G Hg Hs). }
  split; cbn [nt_clients nt_dealer].
  - intros s cl k r Hg. rewrite zget_post, zget_zset. intros H Hk Hkeep Hin.
    assert (Hs : connected s n = true).
    { rewrite <- Conn. unfold connected. cbn [nt_clients]. rewrite zmem_zget, zget_post, zget_zset, H. reflexivity. }
    apply in_obl. destruct (Z.eqb_spec s s0) as [->|Hne].
    + injection H as <-. cbn [cl_session cl_up cl_down] in *. specialize (K s0 _ k r Hg G0 Hk Hkeep Hin). apply in_obl in K. cbn [cl_up cl_down omap] in K.
      rewrite omap_app, in_app_iff. specialize (Keep s0 k r Hg Hs Hk Hkeep).
      destruct (up_req k m0) as [y|]; [|tauto]. cbn [In] in K. destruct K as [[->|K]|K]; tauto.
    + destruct (zget s (nt_clients n)) as [cl'|] eqn:G; [|discriminate]. injection H as <-. cbn [cl_session cl_up cl_down] in *.
      specialize (K s _ k r Hg G Hk Hkeep Hin). apply in_obl in K. rewrite omap_app, in_app_iff. specialize (Keep s k r Hg Hs Hk Hkeep). tauto.
  - intros Eh. subst hf. destruct (C eq_refl) as [C1 C2 C3 C4]. split; cbn [nt_clients nt_dealer].
    + intros s cl r Hg. rewrite zget_post, zget_zset. destruct (Z.eqb_spec s s0) as [->|Hne].
      * intros H. injection H as <-. cbn [cl_up]. intros Hz Hin. destruct (Rc1 _ _ Hz) as [Hz'|[_ Hu]].
        -- apply (C1 s0 _ r Hg G0 Hz'). cbn [cl_up omap]. destruct (up_req RCall m0); [right|]; exact Hin.
        -- pose proof (ci_nd _ _ _ _ _ _ _ (Hcl s0 _ Hg G0) RCall eq_refl) as N. cbn [cl_up cl_down] in N. unfold obl in N.
           apply NoDup_app_l in N. cbn [omap] in N. rewrite Hu in N. inversion N. auto.
      * destruct (zget s (nt_clients n)) as [cl'|] eqn:G; [|discriminate]. intros H. injection H as <-. cbn [cl_up].
        intros Hz. destruct (Rc1 _ _ Hz) as [Hz'|[Hs _]]; [eauto|contradiction].
    + intros s cl r Hg. rewrite zget_post, zget_zset. intros H Hz. apply sent_now_snoc; [|discriminate].
      destruct (Rc1 _ _ Hz) as [Hz'|[-> Hu]].
      * destruct (Z.eqb_spec s s0) as [->|]; [exact (C2 s0 _ r Hg G0 Hz')|].
        destruct (zget s (nt_clients n)) as [cl'|] eqn:G; [|discriminate]. exact (C2 s _ r Hg G Hz').
      * apply (ci_used _ _ _ _ _ _ _ (Hcl s0 _ Hg G0) RCall r eq_refl). apply (ci_out _ _ _ _ _ _ _ (Hcl s0 _ Hg G0) RCall r eq_refl).
        apply in_obl. left. cbn [cl_up omap]. rewrite Hu. left. reflexivity.
    + intros s r Hz. apply joined_mono. destruct (Rc1 _ _ Hz) as [Hz'|[-> _]]; [eauto|]. apply Hj. rewrite zmem_zget, G0. reflexivity.
    + intros i inv G Hg Hs. rewrite Conn in Hs. destruct (Rc2 i inv G) as [[Ho|Ho] H2]; [|exact Ho].
      apply H2; [exact Ho|exact (C4 i inv Ho Hg Hs)|]. apply connected_get in Hs. destruct Hs as [cl Gs].
      pose proof (ci_nd _ _ _ _ _ _ _ (Hcl _ _ Hg Gs) RCall eq_refl) as N. unfold obl in N. apply NoDup_app_r in N. apply NoDup_app_l in N. exact N.
  - intros s m k r Hg H Hk Hu. apply asked_snoc in H. destruct H as [[H _]|[H _]]; [discriminate|].
    destruct (As s m k r Hg H Hk Hu) as (cl & G & Hx). rewrite zget_post, zget_zset.
    assert (Hx' : In r (outstanding k (cl_session cl)) \/ (exists x, In (ADeliver s, Delivered x (Ok x)) ((ARoute s0, Quiet) :: t) /\ down_req k x = Some r)).
    { destruct Hx as [Hx|(x & H1 & H2)]; [auto|]. right. exists x. split; [right; exact H1|exact H2]. }
    destruct (Z.eqb_spec s s0) as [->|].
    + eexists. split; [reflexivity|]. cbn [cl_session]. replace cl with (mkClient c (m0 :: U) D) in Hx' by congruence. exact Hx'.
    + rewrite G. eexists. split; [reflexivity|]. exact Hx'.
Qed.

Lemma LInv_run hf acts : allowed hf acts -> LInv hf acts (fst (nrun acts)) (snd (nrun acts)).
Proof.
  induction acts as [|a acts IH] using rev_ind; intros A.
  - split.
    + intros s cl k r _ H. discriminate.
    + intros _. split; cbn; try discriminate.
    + intros s m k r _ (b & c & E & _). destruct b; discriminate.
  - rewrite nrun_snoc. unfold nstep_h. pose proof (NInv_run Gd hf acts (allowed_prefix _ _ _ _ A)) as J. specialize (IH (allowed_prefix _ _ _ _ A)).
    assert (H : LInv hf (acts ++ [a]) (fst (nstep (fst (nrun acts)) a)) ((a, snd (nstep (fst (nrun acts)) a)) :: snd (nrun acts))).
    { destruct a; [apply live_join|apply live_leave|apply live_send|apply live_route|apply live_deliver|apply live_put]; auto. exact (put_foreign _ _ _ _ _ A). }
    destruct (nstep (fst (nrun acts)) a). exact H.
Qed.

Lemma answered_of m k r x : up_req k m = Some r -> keeps k = true -> down_req k x = Some r -> answers m x = true.
Proof.
  intros Hu Hk Hd.
  destruct m; cbn [up_req asks] in Hu; try discriminate; try (destruct (acknowledged m); [|discriminate]);
    destruct k; cbn [kind_eqb] in Hu; try discriminate; injection Hu as <-;
    destruct x; cbn [down_req] in Hd; try discriminate.
  all: try (injection Hd as Hd; cbn [answers]; rewrite Hd; apply Z.eqb_refl).
  all: cbn [answers]; match type of Hd with (if ?a =? ?b then _ else _) = _ => destruct (Z.eqb_spec a b) as [E|]; [|discriminate] end;
    injection Hd as Hd; rewrite E, Hd, !Z.eqb_refl; reflexivity.
Qed.

(** A request of a kind the router answers, once nothing is in transit on the client's links. *)
Theorem requests_answered hf before s m after k r : let acts := before ++ ASend s m :: after in
  Gd s -> allowed hf acts -> in_half hf k = true -> keeps k = true -> up_req k m = Some r ->
  connected s (fst (nrun before)) = true -> ~ In (ALeave s) after -> idle s (fst (nrun acts)) ->
  got_answer s m (snd (nrun acts)) \/ (k = RCall /\ waiting s r (fst (nrun acts))).
Proof.
  intros acts Hg A Hk Hkeep Hu Hc Hl [c G]. pose proof (LInv_run hf acts A) as [K _ As].
  destruct (As s m k r Hg) as (cl & G' & Hx); [exists before, after; auto|exact Hk|exact Hu|].
  rewrite G in G'. injection G' as <-. cbn [cl_session] in Hx. destruct Hx as [Hx|(x & H1 & H2)].
  - right. specialize (K s _ k r Hg G Hk Hkeep Hx). apply in_obl in K. cbn [cl_up cl_down omap In] in K.
    destruct K as [[]|[K|[]]]. unfold pk in K. destruct (kind_eqb k RCall) eqn:Ek; [|destruct K]. split; [destruct k; try discriminate; reflexivity|].
    apply omap_in in K. destruct K as ([i inv] & Hin & Hc'). unfold call_of in Hc'. cbn [snd] in Hc'.
    destruct (Z.eqb_spec (pi_caller inv) s); [|discriminate]. injection Hc' as <-. exists i, inv. split; [|auto].
    pose proof (NInv_run Gd hf acts A) as J. destruct (ni_d _ _ _ _ J) as (hd & Jd & _).
    apply (In_dget _ Zeqb_ok); [exact (de_pending _ (proj2 (proj2 (proj1 Jd))))|exact Hin].
  - left. exists x. split; [|exact H1]. eapply answered_of; eauto.
Qed.

End Disciplined.
