(** * NetworkInv: the invariant of the whole network. *)
From Coq Require Import String Ascii List ZArith Bool Lia Permutation.
From Verif Require Import PyBase Messages IdGen DictFacts SpecHistory Session SpecSession SessionRun SessionFacts Joiner.
From Verif Require Import Broker SpecBroker BrokerRun BrokerFacts Dealer SpecDealer DealerRun DealerFacts Network SpecNetwork NetworkFacts.
Import ListNotations.
Local Open Scope string_scope.
Local Open Scope Z_scope.
Local Open Scope list_scope.

Definition other (hf : half) : half := match hf with PubSub => Rpc | Rpc => PubSub end.

(** Calls of [s] the dealer is waiting on. *)
Definition call_of (s : Z) (e : Z * pending_invocation) : option Z :=
  if pi_caller (snd e) =? s then Some (pyint_Z (pi_request (snd e))) else None.
Definition pend (d : dealer) (s : Z) : list Z := omap (call_of s) (d_pending d).

(** The ids the router has on record for [s]. *)
Definition keys_of (t : list (Z * list (Z * nat))) (s g : Z) : Prop := exists own l, zget s t = Some own /\ zget g own = Some l.
Definition own_keys (hf : half) (b : broker) (d : dealer) (s : Z) : Z -> Prop :=
  match hf with PubSub => keys_of (b_by_session b) s | Rpc => keys_of (d_by_session d) s end.

Definition pk (k : request_kind) (P : list Z) : list Z := if kind_eqb k RCall then P else [].

Lemma obl_move k us U' P P' D new extra :
  Permutation (omap (up_req k) us ++ pk k P) (extra ++ pk k P' ++ omap (down_req k) new) ->
  Permutation (obl k (us ++ U') P D) (extra ++ obl k U' P' (D ++ new)).
Proof.
  intros H. unfold obl. fold (pk k P) (pk k P'). rewrite !omap_app.
  set (a := omap (up_req k) us) in *. set (u := omap (up_req k) U') in *. set (p := pk k P) in *. set (p' := pk k P') in *.
  set (x := omap (down_req k) D) in *. set (y := omap (down_req k) new) in *.
  transitivity ((a ++ p) ++ (u ++ x)).
  - rewrite <- !app_assoc. apply Permutation_app_head. rewrite !app_assoc. apply Permutation_app_tail. apply Permutation_app_comm.
  - rewrite H. rewrite <- !app_assoc. apply Permutation_app_head.
    transitivity (p' ++ u ++ x ++ y).
    + apply Permutation_app_head. rewrite (app_assoc u x y). apply Permutation_app_comm.
    + rewrite !app_assoc. do 2 apply Permutation_app_tail. apply Permutation_app_comm.
Qed.

Lemma CI_route hf used c us U' P P' D new K K' : CI hf used c (us ++ U') P D K ->
  (forall k, in_half hf k = true -> exists extra,
     Permutation (omap (up_req k) us ++ pk k P) (extra ++ pk k P' ++ omap (down_req k) new)) ->
  Forall router_msg new ->
  (forall tg : Z -> option Z, (forall m r g, In m us -> tgt_req hf m = Some (r, g) -> tg r = Some g) ->
     good tg K (map (eff_of hf) new) K') ->
  CI hf used c U' P' (D ++ new) K'.
Proof.
  intros J Hp Hr Hg. eapply CI_change; [exact J| | |exact Hr|].
  - intros k Hk. destruct (Hp k Hk) as [extra H]. exists extra. apply obl_move. exact H.
  - intros x Hx. apply in_or_app. right. exact Hx.
  - apply Hg. intros m r g Hin. apply (ci_tgt _ _ _ _ _ _ _ J). apply in_or_app. left. exact Hin.
Qed.

Lemma good_foreign hf new : Forall router_msg new -> Forall (fun m => message_half m = Some (other hf)) new ->
  (forall k, in_half hf k = true -> omap (down_req k) new = []) /\ (forall tg K, good tg K (map (eff_of hf) new) K).
Proof.
  intros R H. induction H as [|m new Hm H IH].
  - split; [reflexivity|]. intros tg K. cbn. tauto.
  - apply Forall_cons_iff in R. destruct R as [R RN]. destruct (IH RN) as [I1 I2].
    destruct (receive_foreign hf session_init m R) as (_ & _ & _ & F4 & F5); [rewrite Hm; destruct hf; discriminate|]. split.
    + intros k Hk. cbn [omap]. rewrite F5 by exact Hk. auto.
    + intros tg K. cbn [map good]. rewrite F4. apply I2.
Qed.

Lemma in_mail p posts s : In p (mail posts s) -> exists rt, In rt posts /\ rt_message rt = p /\ rt_recipient rt = s.
Proof.
  unfold mail. rewrite in_map_iff. intros (rt & E & H). apply filter_In in H. destruct H as [H1 H2]. apply Z.eqb_eq in H2. eauto.
Qed.
Lemma mail_app p1 p2 s : mail (p1 ++ p2) s = mail p1 s ++ mail p2 s.
Proof. unfold mail. rewrite filter_app, map_app. reflexivity. Qed.
Lemma mail_one m r s : mail [mkRouted m r] s = if r =? s then [m] else [].
Proof. unfold mail. cbn. destruct (r =? s); reflexivity. Qed.

(** ** The broker's half *)
Lemma keys_zset t s own s' g : keys_of (zset s own t) s' g <->
  if s' =? s then exists l, zget g own = Some l else keys_of t s' g.
Proof.
  unfold keys_of. rewrite zget_zset. destruct (s' =? s).
  - split; [intros (o & l & E & H); injection E as <-; eauto|intros [l H]; eauto].
  - reflexivity.
Qed.
Lemma keys_zdel t s s' g : NoDup (map fst t) -> keys_of (zdel s t) s' g <-> s' <> s /\ keys_of t s' g.
Proof.
  intros N. unfold keys_of. rewrite zget_zdel by exact N. destruct (Z.eqb_spec s' s).
  - split; [intros (o & l & E & _); discriminate|tauto].
  - tauto.
Qed.

Definition for_broker (m : message) : bool := match m with Subscribe _ | Unsubscribe _ | Publish _ => true | _ => false end.
Definition for_dealer (m : message) : bool :=
  match m with Call _ | Yield _ | Register _ | Unregister _ | Error _ => true | _ => false end.

Definition from_half (hf : half) (rt : routed) : Prop := router_msg (rt_message rt) /\ message_half (rt_message rt) = Some hf.

Lemma from_half_mail hf posts s : Forall (from_half hf) posts ->
  Forall router_msg (mail posts s) /\ Forall (fun m => message_half m = Some hf) (mail posts s).
Proof.
  intros H. rewrite Forall_forall in H. split; apply Forall_forall; intros m Hm; apply in_mail in Hm;
    destruct Hm as (rt & Hin & <- & _); apply (H rt Hin).
Qed.

Definition sent_by (s s' : Z) (m : message) : list message := if s' =? s then [m] else [].

Record half_ok (hf : half) (s : Z) (m : message) (s' : Z) (new : list message) (P P' : list Z) (K K' : Z -> Prop) : Prop := {
  ho_obl : forall k, in_half hf k = true -> exists extra,
    Permutation (omap (up_req k) (sent_by s s' m) ++ pk k P) (extra ++ pk k P' ++ omap (down_req k) new);
  ho_good : forall tg : Z -> option Z, (forall r g, s' = s -> tgt_req hf m = Some (r, g) -> tg r = Some g) ->
    good tg K (map (eff_of hf) new) K' }.

Lemma half_ok_quiet hf s m s' P K : half_ok hf s m s' [] P P K K.
Proof.
  split.
  - intros k Hk. exists (omap (up_req k) (sent_by s s' m)). cbn [omap]. rewrite app_nil_r. reflexivity.
  - intros tg _. cbn. tauto.
Qed.
Lemma half_ok_foreign hf s m s' new P P' K : Forall router_msg new -> Forall (fun x => message_half x = Some (other hf)) new ->
  (hf = Rpc -> P' = P) -> half_ok hf s m s' new P P' K K.
Proof.
  intros R H E. destruct (good_foreign hf new R H) as [A B]. split.
  - intros k Hk. exists (omap (up_req k) (sent_by s s' m)). rewrite A by exact Hk. rewrite app_nil_r.
    apply Permutation_app_head. unfold pk. destruct hf.
    + destruct k; try discriminate; reflexivity.
    + rewrite E by reflexivity. reflexivity.
  - intros tg _. apply B.
Qed.

Lemma kind_pub k P : in_half PubSub k = true -> pk k P = [].
Proof. destruct k; cbn; intros H; try discriminate; reflexivity. Qed.

Definition pub_half_ok (b b' : broker) (hb : bhistory) (s : Z) (m : message) (posts : list routed) : Prop :=
  (exists o, BInv b' ((o, snd (bstep b o)) :: hb)) /\
  (forall s', zmem s' (b_by_session b') = zmem s' (b_by_session b)) /\ Forall (from_half PubSub) posts /\
  forall s' P P', half_ok PubSub s m s' (mail posts s') P P' (keys_of (b_by_session b) s') (keys_of (b_by_session b') s').

Lemma zmem_zset_same {V} s (v v' : V) t s' : zget s t = Some v -> zmem s' (zset s v' t) = zmem s' t.
Proof. intros H. rewrite !zmem_zget, zget_zset. destruct (Z.eqb_spec s' s) as [->|]; [rewrite H|]; reflexivity. Qed.

(** A reply to [s] alone. *)
Lemma pub_reply s m reply K K' (k0 : request_kind) r : in_half PubSub k0 = true ->
  (forall k, in_half PubSub k = true -> up_req k m = if kind_eqb k k0 then Some r else None) ->
  (forall k, in_half PubSub k = true -> down_req k reply = if kind_eqb k k0 then Some r else None) ->
  (forall s', s' <> s -> forall g, K s' g <-> K' s' g) ->
  (forall tg : Z -> option Z, (forall r g, tgt_req PubSub m = Some (r, g) -> tg r = Some g) ->
     good tg (K s) [eff_of PubSub reply] (K' s)) ->
  forall s' P P', half_ok PubSub s m s' (mail [mkRouted reply s] s') P P' (K s') (K' s').
Proof.
  intros Hk0 Hu Hd Hn Hg s' P P'. rewrite mail_one. unfold sent_by. destruct (Z.eqb_spec s' s) as [->|Hne].
  - rewrite Z.eqb_refl. split.
    + intros k Hk. exists []. rewrite !kind_pub by exact Hk. rewrite app_nil_r. unfold sent_by. rewrite Z.eqb_refl. cbn [omap app].
      rewrite Hu, Hd by exact Hk. reflexivity.
    + intros tg Ht. apply Hg. intros r' g. apply Ht. reflexivity.
  - destruct (Z.eqb_spec s s'); [congruence|]. split.
    + intros k Hk. exists []. rewrite !kind_pub by exact Hk. unfold sent_by. destruct (Z.eqb_spec s' s); [contradiction|]. reflexivity.
    + intros tg _. cbn. apply Hn. exact Hne.
Qed.

Lemma pub_subscribe b hb s m b' r : BInv b hb -> ids_issued hb <= ID_MAX ->
  b_receive_message b s (Subscribe m) = (b', r) ->
  pub_half_ok b b' hb s (Subscribe m) (match r with Ok rt => [rt] | Raise _ => [] end).
Proof.
  intros J Hmax E. pose proof J as (J1 & _ & T). pose proof (bstep_outcome b (BMsg s (Subscribe m)) J1) as Ho.
  pose proof (BInv_step b hb (BMsg s (Subscribe m)) J) as J'. cbn [bstep] in Ho, J'. rewrite E in *. cbn [fst snd] in *.
  assert (HK : forall k, in_half PubSub k = true -> up_req k (Subscribe m) = if kind_eqb k RSub then Some (pyint_Z (su_request m)) else None)
    by (intros k _; reflexivity).
  split; [exists (BMsg s (Subscribe m)); cbn [bstep]; rewrite E; exact J'|]. clear J'.
  destruct r as [rt|e]; cbn [out_of] in Ho; inversion Ho; try subst b'; subst; clear Ho; try congruence.
  - split; [intros s'; apply (zmem_zset_same _ own); assumption|]. split; [repeat constructor|].
    apply (pub_reply s _ _ (keys_of (b_by_session b)) (keys_of (zset s (zset id (length (b_heap b)) own) (b_by_session b))) RSub (pyint_Z (su_request m))); auto.
    + intros k Hk. destruct k; try discriminate; reflexivity.
    + intros s' Hs' g0. rewrite keys_zset. destruct (Z.eqb_spec s' s); [contradiction|]. reflexivity.
    + intros tg _. cbn [eff_of good pyint_Z sd_subscription]. intros i. rewrite keys_zset, Z.eqb_refl, zget_zset. unfold keys_of.
      destruct (Z.eqb_spec i id) as [->|]; [split; eauto|]. split.
      * intros [X|(o & l & X & Y)]; [contradiction|]. replace own with o by congruence. eauto.
      * intros [l X]. right. eauto.
  - split; [intros s'; apply (zmem_zset_same _ own); assumption|]. split; [repeat constructor|].
    apply (pub_reply s _ _ (keys_of (b_by_session b)) (keys_of (zset s (zset (sub_id sub) l own) (b_by_session b))) RSub (pyint_Z (su_request m))); auto.
    + intros k Hk. destruct k; try discriminate; reflexivity.
    + intros s' Hs' g0. rewrite keys_zset. destruct (Z.eqb_spec s' s); [contradiction|]. reflexivity.
    + intros tg _. cbn [eff_of good pyint_Z sd_subscription]. intros i. rewrite keys_zset, Z.eqb_refl, zget_zset. unfold keys_of.
      destruct (Z.eqb_spec i (sub_id sub)) as [->|]; [split; eauto|]. split.
      * intros [X|(o & l' & X & Y)]; [contradiction|]. replace own with o by congruence. eauto.
      * intros [l' X]. right. eauto.
  - split; [reflexivity|]. split; [constructor|]. intros s' P P'. apply half_ok_foreign; [constructor|constructor|discriminate].
Qed.

Lemma pub_unsubscribe b hb s m b' r : BInv b hb -> ids_issued hb <= ID_MAX ->
  b_receive_message b s (Unsubscribe m) = (b', r) ->
  pub_half_ok b b' hb s (Unsubscribe m) (match r with Ok rt => [rt] | Raise _ => [] end).
Proof.
  intros J Hmax E. pose proof J as (J1 & _ & T). pose proof (bstep_outcome b (BMsg s (Unsubscribe m)) J1) as Ho.
  pose proof (BInv_step b hb (BMsg s (Unsubscribe m)) J) as J'. cbn [bstep] in Ho, J'. rewrite E in *. cbn [fst snd] in *.
  split; [exists (BMsg s (Unsubscribe m)); cbn [bstep]; rewrite E; exact J'|]. clear J'.
  destruct J1 as (W & O & SS).
  destruct r as [rt|e]; cbn [out_of] in Ho; inversion Ho; try congruence.
  - subst. match goal with X : b_by_session b' = _ |- _ => rewrite X end.
    split; [intros s'; apply (zmem_zset_same _ own); assumption|]. split; [repeat constructor|].
    apply (pub_reply s _ _ (keys_of (b_by_session b)) (keys_of (zset s (zdel (pyint_Z (us_subscription m)) own) (b_by_session b)))
             RUnsub (pyint_Z (us_request m))); auto.
    + intros k Hk. destruct k; try discriminate; reflexivity.
    + intros s' Hs' g0. rewrite keys_zset. destruct (Z.eqb_spec s' s); [contradiction|]. reflexivity.
    + intros tg Ht. cbn [eff_of good ud_request]. exists (pyint_Z (us_subscription m)).
      split; [apply Ht; reflexivity|]. split; [unfold keys_of; eauto|]. intros i. rewrite keys_zset, Z.eqb_refl.
      rewrite zget_zdel by (eapply (ow_nd_own _ O); eassumption). unfold keys_of.
      destruct (Z.eqb_spec i (pyint_Z (us_subscription m))) as [->|].
      * split; [tauto|intros [l' X]; discriminate].
      * split.
        -- intros [(o & l' & X & Y) _]. replace own with o by congruence. eauto.
        -- intros [l' X]. split; eauto.
  - subst. split; [reflexivity|]. split; [constructor|]. intros s' P P'. apply half_ok_foreign; [constructor|constructor|discriminate].
Qed.

Lemma good_needs new tg K : (forall e, In e new -> exists g, e = Need g /\ K g) -> good tg K new K.
Proof.
  induction new as [|e new IH]; intros H; cbn [good]; [tauto|].
  destruct (H e (or_introl eq_refl)) as (g & -> & Hg). split; [exact Hg|]. apply IH. intros e' He'. apply H. right. exact He'.
Qed.

Lemma pub_publish b hb s m b' r : BInv b hb -> ids_issued hb <= ID_MAX ->
  b_receive_publish b s m = (b', r) ->
  pub_half_ok b b' hb s (Publish m)
    (match r with
     | Ok pub =>
         match pu_ack pub with Some rt => [rt] | None => [] end ++
         match pu_event pub with Some ev => map (fun c => mkRouted (Event ev) c) (pu_recipients pub) | None => [] end
     | Raise _ => []
     end).
Proof.
  intros J Hmax E. pose proof J as (J1 & _ & T). specialize (T Hmax). pose proof (bstep_outcome b (BPub s m) J1) as Ho.
  pose proof (BInv_step b hb (BPub s m) J) as J'. cbn [bstep] in Ho, J'. rewrite E in *. cbn [fst snd] in *.
  split; [exists (BPub s m); cbn [bstep]; rewrite E; exact J'|]. clear J'.
  destruct r as [pub|e]; cbn [out_of] in Ho; inversion Ho; try subst b'; subst; clear Ho.
  2:{ split; [reflexivity|]. split; [constructor|]. intros s' P P'. apply half_ok_foreign; [constructor|constructor|discriminate]. }
  split; [reflexivity|]. cbn [pu_ack pu_event pu_recipients].
  change (b_by_session (set_bidgen b g)) with (b_by_session b).
  match goal with |- context [?a ++ ?b] => set (acks := a); set (evs := b) end.
  assert (Hack : acks = if acknowledged m then [mkRouted (Published (mkPublished (pb_request m) (PyInt pid))) s] else [])
    by (unfold acks, acknowledged; destruct (truthy _); reflexivity).
  assert (Hev : forall rt, In rt evs -> exists ev, rt_message rt = Event ev /\ keys_of (b_by_session b) (rt_recipient rt) (pyint_Z (ev_subscription ev))).
  { intros rt Hin. unfold evs in Hin. destruct (tget (pb_topic m) (b_by_topic b)) as [l|]; [|destruct Hin].
    destruct (at_ b l) as [sub|] eqn:A; cbn [option_map] in Hin; [|destruct Hin].
    apply in_map_iff in Hin. destruct Hin as (c & <- & Hc). cbn [rt_message rt_recipient]. eexists. split; [reflexivity|].
    cbn [ev_subscription pyint_Z]. destruct (tr_all _ _ T c l sub A Hc) as (own' & G1 & G2). unfold keys_of. eauto. }
  clearbody acks evs. split.
  - apply Forall_app. split.
    + rewrite Hack. destruct (acknowledged m); repeat constructor.
    + apply Forall_forall. intros rt Hin. destruct (Hev rt Hin) as (ev & Em & _). unfold from_half. rewrite Em. split; [exact Logic.I|reflexivity].
  - intros s' P P'. rewrite mail_app.
    assert (Hm : forall x, In x (mail evs s') -> exists ev, x = Event ev /\ keys_of (b_by_session b) s' (pyint_Z (ev_subscription ev))).
    { intros x Hx. apply in_mail in Hx. destruct Hx as (rt & Hin & <- & <-). destruct (Hev rt Hin) as (ev & Em & Hk). eauto. }
    assert (Hd : forall k, in_half PubSub k = true -> omap (down_req k) (mail evs s') = []).
    { intros k Hk. clear -Hm Hk. induction (mail evs s') as [|x l IH]; [reflexivity|]. cbn [omap].
      destruct (Hm x (or_introl eq_refl)) as (ev & -> & _). rewrite IH by (intros; apply Hm; right; assumption).
      destruct k; reflexivity. }
    assert (Hg : forall tg, good tg (keys_of (b_by_session b) s') (map (eff_of PubSub) (mail evs s')) (keys_of (b_by_session b) s')).
    { intros tg. apply good_needs. intros e He. apply in_map_iff in He. destruct He as (x & <- & Hx).
      destruct (Hm x Hx) as (ev & -> & Hk). eexists. split; [reflexivity|exact Hk]. }
    split.
    + intros k Hk. rewrite !kind_pub by exact Hk. rewrite omap_app, (Hd k Hk), !app_nil_r. rewrite Hack. unfold sent_by.
      destruct (acknowledged m) eqn:Ea.
      * rewrite mail_one, (Z.eqb_sym s s'). destruct (s' =? s); [|exists []; reflexivity]. exists []. cbn [omap up_req app]. rewrite Ea.
        destruct k; try discriminate; reflexivity.
      * exists []. destruct (s' =? s); [|reflexivity]. cbn [omap up_req app mail filter map]. rewrite Ea. reflexivity.
    + intros tg _. rewrite map_app. eapply good_app; [|apply Hg]. rewrite Hack. destruct (acknowledged m).
      * rewrite mail_one. destruct (s =? s'); cbn; tauto.
      * cbn. tauto.
Qed.

(** ** The dealer's half *)
Definition rpc_half_ok (Gd : Z -> Prop) (d d' : dealer) (s : Z) (m : message) (posts : list routed) : Prop :=
  (forall s', zmem s' (d_by_session d') = zmem s' (d_by_session d)) /\ Forall (from_half Rpc) posts /\
  forall s', Gd s' -> half_ok Rpc s m s' (mail posts s') (pend d s') (pend d' s') (keys_of (d_by_session d) s') (keys_of (d_by_session d') s').

Lemma pend_zset d i inv s : zget i (d_pending d) = None ->
  omap (call_of s) (zset i inv (d_pending d)) = pend d s ++ (if pi_caller inv =? s then [pyint_Z (pi_request inv)] else []).
Proof.
  intros H. unfold zset. rewrite (dset_absent _) by exact H. unfold pend. rewrite omap_app. cbn [omap]. unfold call_of at 2. cbn [snd].
  destruct (_ =? s); reflexivity.
Qed.
Lemma pend_zdel i inv s : forall p, zget i p = Some inv ->
  Permutation (omap (call_of s) p) ((if pi_caller inv =? s then [pyint_Z (pi_request inv)] else []) ++ omap (call_of s) (zdel i p)).
Proof.
  induction p as [|[j x] p IH]; [discriminate|]. unfold zget, zdel in *. cbn [dget ddel]. destruct (i =? j).
  - intros H. injection H as ->. cbn [omap]. unfold call_of at 1. cbn [snd]. destruct (pi_caller inv =? s); reflexivity.
  - intros H. cbn [omap]. destruct (call_of s (j, x)) as [r|]; [|auto]. rewrite (IH H).
    apply (Permutation_middle (if pi_caller inv =? s then [pyint_Z (pi_request inv)] else [])).
Qed.

Lemma rpc_other (Gd : Z -> Prop) d s m posts : DInv1 d ->  posts = [] -> rpc_half_ok Gd d d s m posts.
Proof. intros _ ->. split; [reflexivity|]. split; [constructor|]. intros s' _. apply half_ok_quiet. Qed.

(** A reply to [s] alone; the calls in progress do not change. *)
Lemma rpc_reply d d' s m reply (k0 : request_kind) r : d_pending d' = d_pending d ->
  (forall k, in_half Rpc k = true -> up_req k m = if kind_eqb k k0 then Some r else None) ->
  (forall k, in_half Rpc k = true -> down_req k reply = if kind_eqb k k0 then Some r else None) ->
  (forall s', s' <> s -> forall g, keys_of (d_by_session d) s' g <-> keys_of (d_by_session d') s' g) ->
  (forall tg : Z -> option Z, (forall r g, tgt_req Rpc m = Some (r, g) -> tg r = Some g) ->
     good tg (keys_of (d_by_session d) s) [eff_of Rpc reply] (keys_of (d_by_session d') s)) ->
  forall s', half_ok Rpc s m s' (mail [mkRouted reply s] s') (pend d s') (pend d' s')
    (keys_of (d_by_session d) s') (keys_of (d_by_session d') s').
Proof.
  intros Hp Hu Hd Hn Hg s'. unfold pend. rewrite Hp. rewrite mail_one. unfold sent_by. destruct (Z.eqb_spec s' s) as [->|Hne].
  - rewrite Z.eqb_refl. split.
    + intros k Hk. exists []. unfold sent_by. rewrite Z.eqb_refl. cbn [omap app].
      rewrite Hu, Hd by exact Hk. destruct (kind_eqb k k0); [|rewrite app_nil_r; reflexivity]. apply Permutation_app_comm.
    + intros tg Ht. apply Hg. intros r' g. apply Ht. reflexivity.
  - destruct (Z.eqb_spec s s'); [congruence|]. split.
    + intros k Hk. exists []. unfold sent_by. destruct (Z.eqb_spec s' s); [contradiction|]. cbn [omap app]. rewrite app_nil_r. reflexivity.
    + intros tg _. cbn. apply Hn. exact Hne.
Qed.

Lemma T48 : (48 =? T_REGISTER) = false. Proof. reflexivity. Qed.
Lemma T48' : (48 =? T_CALL) = true. Proof. reflexivity. Qed.

(** The answer to a pending call. *)
Lemma rpc_answer d d' s m reply i inv : zget i (d_pending d) = Some inv -> d_pending d' = zdel i (d_pending d) ->
  d_by_session d' = d_by_session d -> (forall k, up_req k m = None) ->
  (forall k, in_half Rpc k = true -> down_req k reply = if kind_eqb k RCall then Some (pyint_Z (pi_request inv)) else None) ->
  eff_of Rpc reply = Nop -> tgt_req Rpc m = None ->
  forall s', half_ok Rpc s m s' (mail [mkRouted reply (pi_caller inv)] s') (pend d s') (pend d' s')
    (keys_of (d_by_session d) s') (keys_of (d_by_session d') s').
Proof.
  intros Hg Hp Hs Hu Hd He Ht s'. rewrite Hs. unfold pend. rewrite Hp. rewrite mail_one. split.
  - intros k Hk. exists []. cbn [app]. replace (omap (up_req k) (sent_by s s' m)) with (@nil Z).
    2:{ unfold sent_by. destruct (s' =? s); [|reflexivity]. cbn [omap]. rewrite Hu. reflexivity. }
    cbn [app]. unfold pk. pose proof (pend_zdel i inv s' (d_pending d) Hg) as Pm. destruct (kind_eqb k RCall) eqn:Ek.
    + rewrite Pm. destruct (pi_caller inv =? s'); cbn [omap app].
      * rewrite Hd by exact Hk. rewrite Ek. apply Permutation_cons_append.
      * rewrite app_nil_r. reflexivity.
    + destruct (pi_caller inv =? s'); cbn [omap app]; [|reflexivity]. rewrite Hd by exact Hk. rewrite Ek. reflexivity.
  - intros tg _. destruct (pi_caller inv =? s'); cbn [map]; [rewrite He|]; cbn; tauto.
Qed.

(** An INVOCATION for callee [c]. *)
Lemma rpc_invoke d d' hd s m c l reg inv_m : DInv d hd -> d_ids_issued hd <= ID_MAX ->
  dat d l = Some reg -> reg_registrants reg = [(c, c)] -> d_by_session d' = d_by_session d ->
  iv_registration inv_m = PyInt (reg_id reg) ->
  (forall s', pend d' s' = pend d s' \/ (s' = s /\ pend d' s' = pend d s' ++ [pyint_Z (ca_request m)])) ->
  forall s', half_ok Rpc s (Call m) s' (mail [mkRouted (Invocation inv_m) c] s') (pend d s') (pend d' s')
    (keys_of (d_by_session d) s') (keys_of (d_by_session d') s').
Proof.
  intros J Hmax Hl Hc Hs Hi Hp s'. destruct J as (_ & _ & _ & T). specialize (T Hmax). rewrite Hs, mail_one. split.
  - intros k Hk. replace (omap (down_req k) (if c =? s' then [Invocation inv_m] else [])) with (@nil Z).
    2:{ destruct (c =? s'); [|reflexivity]. destruct k; reflexivity. }
    rewrite app_nil_r. unfold pk. destruct (Hp s') as [E|[-> E]]; rewrite E.
    + exists (omap (up_req k) (sent_by s s' (Call m))). reflexivity.
    + unfold sent_by. rewrite Z.eqb_refl. cbn [omap up_req asks]. destruct k; try discriminate; cbn [kind_eqb].
      * exists []. reflexivity.
      * exists []. reflexivity.
      * exists []. cbn [app]. apply Permutation_cons_append.
  - intros tg _. apply good_needs. intros e He. destruct (Z.eqb_spec c s') as [<-|]; [|destruct He].
    destruct He as [<-|[]]. cbn [eff_of]. rewrite Hi. cbn [pyint_Z]. eexists. split; [reflexivity|].
    destruct (dt_all _ _ T c l reg Hl Hc) as (own & G1 & G2). unfold keys_of. eauto.
Qed.

Lemma rpc_half (Gd : Z -> Prop) d hd s m d' r : DInv d hd -> d_ids_issued hd < ID_MAX -> for_dealer m = true ->
  (forall y inv, m = Yield y -> zget (pyint_Z (yi_request y)) (d_pending d) = Some inv -> Gd (pi_caller inv) ->
     wants "progress" (yi_options y) && truthy (pi_receive_progress inv) = false) ->
  d_receive_message d s m = (d', r) ->
  rpc_half_ok Gd d d' s m (match r with Ok rt => [rt] | Raise _ => [] end).
Proof.
  intros J Hmax Hm Hy E. pose proof J as (J1 & _ & _ & T). specialize (T ltac:(lia)).
  pose proof (dstep_outcome d (DMsg s m) J1) as Ho. cbn [dstep] in Ho. rewrite E in Ho. cbn [fst snd] in Ho.
  pose proof J1 as (W & O & SS).
  destruct r as [rt|e]; cbn [d_out_of] in Ho; inversion Ho; try subst d'; subst; clear Ho; try (apply rpc_other; [exact J1|reflexivity]).
  - (* no such procedure *) split; [reflexivity|]. split; [constructor; [|constructor]; split; [left; reflexivity|reflexivity]|].
    intros s0 _; revert s0; apply (rpc_reply d d s _ _ RCall (pyint_Z (ca_request m0))); [reflexivity| | |reflexivity|].
    + intros k _. reflexivity.
    + intros k Hk. destruct k; try discriminate; reflexivity.
    + intros tg _. cbn. tauto.
  - (* fresh call *)
    match goal with X : next_id _ = _ |- _ => rename X into N end.
    match goal with X : dat d l = _ |- _ => rename X into Hl end.
    assert (Hfree : zget id (d_pending d) = None).
    { destruct (zget id (d_pending d)) as [x|] eqn:Gx; [|reflexivity]. exfalso. apply (dt_pending _ _ T) in Gx.
      pose proof (dt_gen _ _ T) as Gg. unfold next_id in N. destruct (Z.eqb_spec (d_idgen d) ID_MAX) as [Eq|Eq]; [lia|].
      injection N as _ <-. lia. }
    split; [reflexivity|]. split; [constructor; [|constructor]; split; [exact Logic.I|reflexivity]|].
    intros s0 _; revert s0; eapply rpc_invoke; [exact J|lia|exact Hl|eassumption|reflexivity|reflexivity|].
    intros s'. unfold pend at 1 3. cbn [add_call set_dcalls set_dpending set_didgen d_pending].
    rewrite pend_zset by exact Hfree. cbn [pi_caller pi_request]. destruct (Z.eqb_spec s s') as [->|].
    + right. split; reflexivity.
    + left. apply app_nil_r.
  - (* chunk *)
    split; [reflexivity|]. split; [constructor; [|constructor]; split; [exact Logic.I|reflexivity]|].
    intros s0 _; revert s0; eapply rpc_invoke; [exact J|lia|eassumption|eassumption|reflexivity|reflexivity|].
    intros s'. left. reflexivity.
  - (* progressive result: not to a caller of [Gd] *)
    split; [reflexivity|]. split; [constructor; [|constructor]; split; [exact Logic.I|reflexivity]|].
    intros s' Hs'. rewrite mail_one. destruct (Z.eqb_spec (pi_caller inv) s') as [<-|]; [exfalso|apply half_ok_quiet].
    match goal with X : zget _ (d_pending d) = _ |- _ => specialize (Hy _ _ eq_refl X Hs') end.
    unfold wants in Hy. repeat match goal with X : sget _ _ = _ |- _ => rewrite X in Hy | X : truthy _ = true |- _ => rewrite X in Hy end.
    discriminate.
  - (* last result *) split; [reflexivity|]. split; [constructor; [|constructor]; split; [exact Logic.I|reflexivity]|].
    intros s0 _; revert s0; eapply rpc_answer; [eassumption|reflexivity|reflexivity| | |reflexivity|reflexivity].
    + intros k. reflexivity.
    + intros k Hk. destruct k; try discriminate; reflexivity.
  - (* already registered *) split; [reflexivity|]. split; [constructor; [|constructor]; split; [right; reflexivity|reflexivity]|].
    intros s0 _; revert s0; apply (rpc_reply d d s _ _ RReg (pyint_Z (rg_request m0))); [reflexivity| | |reflexivity|].
    + intros k _. reflexivity.
    + intros k Hk. destruct k; try discriminate; reflexivity.
    + intros tg _. cbn. tauto.
  - (* registered *) split; [intros s'; cbn [d_by_session]; apply (zmem_zset_same _ own); assumption|].
    split; [constructor; [|constructor]; split; [exact Logic.I|reflexivity]|].
    intros s0 _; revert s0; apply (rpc_reply d _ s _ _ RReg (pyint_Z (rg_request m0))); [reflexivity| | | |].
    + intros k _. reflexivity.
    + intros k Hk. destruct k; try discriminate; reflexivity.
    + intros s' Hs' g0. cbn [d_by_session]. rewrite keys_zset. destruct (Z.eqb_spec s' s); [contradiction|]. reflexivity.
    + intros tg _. cbn [eff_of good pyint_Z rd_registration d_by_session]. intros i. rewrite keys_zset, Z.eqb_refl, zget_zset. unfold keys_of.
      destruct (Z.eqb_spec i id) as [->|]; [split; eauto|]. split.
      * intros [X|(o & l & X & Y)]; [contradiction|]. replace own with o by congruence. eauto.
      * intros [l X]. right. eauto.
  - (* unregistered *)
    match goal with X : d_by_session _ = zset _ _ _ |- _ => rename X into Ds end.
    split; [intros s'; rewrite Ds; apply (zmem_zset_same _ own); assumption|].
    split; [constructor; [|constructor]; split; [exact Logic.I|reflexivity]|].
    intros s0 _; revert s0; apply (rpc_reply d _ s _ _ RUnreg (pyint_Z (ur_request m0))); [assumption| | | |].
    + intros k _. reflexivity.
    + intros k Hk. destruct k; try discriminate; reflexivity.
    + intros s' Hs' g0. rewrite Ds, keys_zset. destruct (Z.eqb_spec s' s); [contradiction|]. reflexivity.
    + intros tg Ht. cbn [eff_of good un_request]. exists (pyint_Z (ur_registration m0)).
      split; [apply Ht; reflexivity|]. split; [unfold keys_of; eauto|]. intros i. rewrite Ds, keys_zset, Z.eqb_refl.
      rewrite zget_zdel by (eapply (do_nd_own _ O); eassumption). unfold keys_of.
      destruct (Z.eqb_spec i (pyint_Z (ur_registration m0))) as [->|].
      * split; [tauto|intros [l' X]; discriminate].
      * split.
        -- intros [(o & l' & X & Y) _]. replace own with o by congruence. eauto.
        -- intros [l' X]. split; eauto.
  - (* error *) split; [reflexivity|]. split; [constructor; [|constructor]; split; [left; reflexivity|reflexivity]|].
    intros s0 _; revert s0; eapply rpc_answer; [eassumption|reflexivity|reflexivity| | |reflexivity|reflexivity].
    + intros k. reflexivity.
    + intros k Hk. destruct k; try discriminate; reflexivity.
  - (* crash *) split; [reflexivity|]. split; [constructor|]. intros s' _. cbn [mail filter map].
    match goal with X : zget _ (d_pending d) = Some inv |- _ => pose proof (pend_zdel _ inv s' _ X) as Pm end. split.
    + intros k Hk. unfold pend, pk. cbn [set_dpending d_pending omap]. rewrite app_nil_r.
      replace (omap (up_req k) (sent_by (pi_callee inv) s' (Yield m0))) with (@nil Z) by (unfold sent_by; destruct (s' =? _); reflexivity).
      destruct (kind_eqb k RCall); [eexists; exact Pm|exists []; reflexivity].
    + intros tg _. cbn. tauto.
Qed.

(** ** The network *)
Definition sent_now (s : Z) (k : request_kind) (r : Z) (acts : list action) : Prop :=
  exists before m between, acts = before ++ ASend s m :: between /\ asks m = Some (k, r) /\ ~ In (ALeave s) between.

Lemma has_sent_app acts more s m : has_sent acts s m -> has_sent (acts ++ more) s m.
Proof. intros [H|H]; [left|right]; apply in_or_app; left; exact H. Qed.

Lemma routings_snoc acts a : routings (acts ++ [a]) = routings acts + (if is_route a then 1 else 0).
Proof. unfold routings. rewrite filter_app, app_length. cbn [filter]. destruct (is_route a); cbn [length]; lia. Qed.
Lemma routings_mono acts a : routings acts <= routings (acts ++ [a]).
Proof. rewrite routings_snoc. destruct (is_route a); lia. Qed.
(** There is an id left for operation [o], if it takes one. *)
Definition b_room (o : bop) (h : bhistory) : Prop := ids_issued h <= ID_MAX /\ match o with BJoin _ | BLeave _ => True | _ => ids_issued h < ID_MAX end.
Definition d_room (o : dop) (h : dhistory) : Prop := d_ids_issued h <= ID_MAX /\ match o with DJoin _ | DLeave _ => True | _ => d_ids_issued h < ID_MAX end.
Lemma b_room_lt o h : ids_issued h < ID_MAX -> b_room o h.
Proof. intros H. split; [lia|destruct o; auto]. Qed.
Lemma d_room_lt o h : d_ids_issued h < ID_MAX -> d_room o h.
Proof. intros H. split; [lia|destruct o; auto]. Qed.

(** [Gd]: the sessions that keep to the rules ([disciplined] below); nothing is asked of the others. *)
Section Disciplined.
Variable Gd : Z -> Prop.

Record NInv (hf : half) (acts : list action) (n : net) : Prop := {
  ni_b : exists h, BInv (nt_broker n) h /\ ids_issued h <= routings acts;
  ni_d : exists h, DInv (nt_dealer n) h /\ d_ids_issued h <= routings acts;
  ni_nd : NoDup (map fst (nt_clients n));
  ni_sync_b : forall s, zmem s (b_by_session (nt_broker n)) = zmem s (nt_clients n);
  ni_sync_d : forall s, zmem s (d_by_session (nt_dealer n)) = zmem s (nt_clients n);
  ni_cl : forall s cl, Gd s -> zget s (nt_clients n) = Some cl ->
    CI hf (fun k r => sent_now s k r acts) (cl_session cl) (cl_up cl) (pend (nt_dealer n) s) (cl_down cl)
       (own_keys hf (nt_broker n) (nt_dealer n) s);
  ni_up : forall s cl m, zget s (nt_clients n) = Some cl -> In m (cl_up cl) -> has_sent acts s m;
  ni_rp : forall i inv, zget i (d_pending (nt_dealer n)) = Some inv -> truthy (pi_receive_progress inv) = true ->
    exists m, has_sent acts (pi_caller inv) (Call m) /\ wants "receive_progress" (ca_options m) = true;
  ni_callers : forall i inv, zget i (d_pending (nt_dealer n)) = Some inv -> In (pi_caller inv) (joined acts);
  ni_joined : forall s, zmem s (nt_clients n) = true -> In s (joined acts) }.

Lemma ids_issued_step e h : ids_issued (e :: h) <= ids_issued h + 1.
Proof. cbn [ids_issued]. destruct (takes_id e h); lia. Qed.
Lemma d_ids_issued_step e h : d_ids_issued (e :: h) <= d_ids_issued h + 1.
Proof. cbn [d_ids_issued]. destruct (d_takes_id e h); lia. Qed.

Lemma joined_snoc acts a : joined (acts ++ [a]) = joined acts ++ match a with AJoin d => [pyint_Z (det_session d)] | _ => [] end.
Proof. unfold joined. rewrite flat_map_app. cbn. rewrite app_nil_r. reflexivity. Qed.
Lemma joined_mono acts a s : In s (joined acts) -> In s (joined (acts ++ [a])).
Proof. rewrite joined_snoc. intros H. apply in_or_app. auto. Qed.

Lemma sent_now_snoc s k r acts a : sent_now s k r acts -> a <> ALeave s -> sent_now s k r (acts ++ [a]).
Proof.
  intros (b & m & c & -> & H1 & H2) Ha. exists b, m, (c ++ [a]). split; [rewrite <- app_assoc; reflexivity|]. split; [exact H1|].
  intros Hin. apply in_app_or in Hin. destruct Hin as [Hin|[Hin|[]]]; auto.
Qed.

Lemma zget_post posts cs s : zget s (post posts cs) =
  option_map (fun cl => mkClient (cl_session cl) (cl_up cl) (cl_down cl ++ mail posts s)) (zget s cs).
Proof.
  induction cs as [|[k cl] cs IH]; [reflexivity|]. unfold zget in *. cbn [post map dget].
  destruct (Z.eqb_spec s k) as [->|]; [reflexivity|exact IH].
Qed.
Lemma keys_post posts cs : map fst (post posts cs) = map fst cs.
Proof. induction cs as [|[k cl] cs IH]; [reflexivity|]. cbn. f_equal. exact IH. Qed.

(** Nothing that matters here happens. *)
Lemma NInv_quiet hf acts a n : NInv hf acts n -> (forall s, a = ALeave s -> zget s (nt_clients n) = None) -> NInv hf (acts ++ [a]) n.
Proof.
  intros [Hb Hd Hnd Sb Sd Hcl Hup Hrp Hca Hj] Ha.
  constructor; auto.
  - destruct Hb as (h & J & Hi). exists h. split; [exact J|]. pose proof (routings_mono acts a). lia.
  - destruct Hd as (h & J & Hi). exists h. split; [exact J|]. pose proof (routings_mono acts a). lia.
  - intros s cl Hs G. eapply CI_used; [exact (Hcl s cl Hs G)|]. intros k r H. apply sent_now_snoc; [exact H|].
    intros ->. rewrite (Ha s eq_refl) in G. discriminate.
  - intros s cl m G Hin. apply has_sent_app. eauto.
  - intros i inv G H. destruct (Hrp i inv G H) as (m & H1 & H2). exists m. split; [apply has_sent_app, H1|exact H2].
  - intros i inv G. apply joined_mono. eauto.
  - intros s H. apply joined_mono. eauto.
Qed.

Lemma CI_ext hf used c U P D K K' : CI hf used c U P D K -> (forall g, K g <-> K' g) -> CI hf used c U P D K'.
Proof.
  intros J H. rewrite <- (app_nil_r D). eapply CI_change; [exact J| |apply incl_refl|constructor|exact H].
  intros k _. exists []. rewrite app_nil_r. reflexivity.
Qed.

Definition allowed (hf : half) (acts : list action) : Prop :=
  routings acts <= ID_MAX /\ forall s, Gd s -> disciplined hf s acts.

Lemma allowed_prefix hf acts a : allowed hf (acts ++ [a]) -> allowed hf acts.
Proof.
  intros (L & D). split; [pose proof (routings_mono acts a); lia|]. intros s Hs. destruct (D s Hs) as (R & S). split.
  - destruct R as [Rp R]. split; [intros m Hin; apply (Rp m), in_or_app; left; exact Hin|].
    intros b m1 c m2 e k r -> Hk H1 H2. eapply (R b m1 c m2 (e ++ [a])); [|exact Hk|exact H1|exact H2].
    rewrite <- app_assoc. cbn [app]. rewrite <- app_assoc. reflexivity.
  - intros ->. destruct (S eq_refl) as [F P]. split.
    + unfold admitted_once in *. rewrite joined_snoc, count_occ_app in F. lia.
    + destruct P as [P|P]; [left; intros m Hin; apply P|right; intros s' m Hin; apply (P s')]; apply has_sent_app, Hin.
Qed.

Lemma first_join acts det : admitted_once (pyint_Z (det_session det)) (acts ++ [AJoin det]) -> ~ In (pyint_Z (det_session det)) (joined acts).
Proof.
  unfold admitted_once. rewrite joined_snoc, count_occ_app. cbn [count_occ]. destruct (Z.eq_dec _ _); [|contradiction].
  intros H Hin. apply (count_occ_In Z.eq_dec) in Hin. lia.
Qed.

Lemma step_join hf acts n det : NInv hf acts n -> allowed hf (acts ++ [AJoin det]) ->
  NInv hf (acts ++ [AJoin det]) (fst (nstep n (AJoin det))).
Proof.
  intros J A. pose proof J as [Hb Hd Hnd Sb Sd Hcl Hup Hrp Hca Hj]. destruct Hb as (hb & Jb & Lb). destruct Hd as (hd & Jd & Ld).
  cbn [nstep]. pose proof (bstep_outcome (nt_broker n) (BJoin det) (proj1 Jb)) as Ob. pose proof (BInv_step _ _ (BJoin det) Jb) as Jb'.
  pose proof (dstep_outcome (nt_dealer n) (DJoin det) (proj1 Jd)) as Od. pose proof (DInv_step _ _ (DJoin det) Jd) as Jd'.
  cbn [bstep dstep] in Ob, Jb', Od, Jd'.
  destruct (b_add_session (nt_broker n) det) as [b' rb]. destruct (d_add_session (nt_dealer n) det) as [d' rd]. cbn [fst snd] in *.
  destruct rb as [ub|eb]; [|apply NInv_quiet; [exact J|discriminate]].
  destruct rd as [ud|ed]; [|apply NInv_quiet; [exact J|discriminate]].
  cbn [out_of d_out_of] in *. set (s0 := pyint_Z (det_session det)) in *. cbn [fst].
  inversion Ob as [x Hfree E1 E2| | | | | | | | | | |]. inversion Od as [y Hfree' E3 E4| | | | | | | | | | | | | | | | | |].
  subst x y. fold s0 in Hfree, Hfree', E2, E4. clear Ob Od. rewrite <- E2, <- E4 in *. clear b' E2 d' E4.
  assert (Hnew : zget s0 (nt_clients n) = None).
  { apply (dmem_false _). change (zmem s0 (nt_clients n) = false). rewrite <- Sb. apply (dmem_false _). exact Hfree. }
  constructor; cbn [nt_broker nt_dealer nt_clients].
  - eexists. split; [exact Jb'|]. rewrite routings_snoc. cbn [is_route]. etransitivity; [|rewrite Z.add_0_r; exact Lb]. cbn [ids_issued takes_id subscribes]. lia.
  - eexists. split; [exact Jd'|]. rewrite routings_snoc. cbn [is_route]. etransitivity; [|rewrite Z.add_0_r; exact Ld]. cbn [d_ids_issued d_takes_id registers invokes]. lia.
  - apply (NoDup_dset _ Zeqb_ok). exact Hnd.
  - intros s. cbn [b_by_session]. rewrite !zmem_zget, !zget_zset. fold s0. destruct (s =? s0); [reflexivity|]. rewrite <- !zmem_zget. apply Sb.
  - intros s. cbn [d_by_session set_dsessions set_dsession]. rewrite !zmem_zget, !zget_zset. fold s0. destruct (s =? s0); [reflexivity|]. rewrite <- !zmem_zget. apply Sd.
  - intros s cl Hs. rewrite zget_zset. destruct (Z.eqb_spec s s0) as [->|Hne].
    + intros H. injection H as <-. cbn [cl_session cl_up cl_down].
      assert (HP : hf = Rpc -> pend (nt_dealer n) s0 = []).
      { intros E. destruct A as (_ & D). destruct (D s0 Hs) as (_ & F). destruct (F E) as [F' _]. apply first_join in F'.
        assert (Hni : ~ In s0 (joined acts)) by exact F'.
        pose proof (de_pending _ (proj2 (proj2 (proj1 Jd)))) as Np.
        assert (HA : forall i inv, In (i, inv) (d_pending (nt_dealer n)) -> pi_caller inv <> s0).
        { intros i inv Hin E'. apply Hni. rewrite <- E'. apply (Hca i inv). apply (In_dget _ Zeqb_ok); assumption. }
        clear -HA. unfold pend. induction (d_pending (nt_dealer n)) as [|[i inv] l IH]; [reflexivity|]. cbn [omap].
        unfold call_of at 1. cbn [snd]. destruct (Z.eqb_spec (pi_caller inv) s0) as [E|].
        - exfalso. apply (HA i inv); [left; reflexivity|exact E].
        - apply IH. intros i' inv' Hin. apply (HA i' inv'). right. exact Hin. }
      match goal with |- CI _ _ _ _ ?P _ _ => change P with (pend (nt_dealer n) s0) end.
      eapply CI_ext with (K := fun _ => False).
      2:{ intros g. split; [tauto|]. destruct hf; cbn [own_keys b_by_session d_by_session set_dsession set_dsessions]; intros H;
            apply keys_zset in H; rewrite Z.eqb_refl in H; destruct H as [l H]; discriminate. }
      destruct hf.
      * pose proof (CI_init PubSub (fun k r => sent_now s0 k r (acts ++ [AJoin det]))) as C0.
        eapply (CI_change PubSub _ _ [] [] [] _ [] _ []) in C0; [exact C0| |apply incl_refl|constructor|cbn; tauto].
        intros k Hk. exists []. unfold obl. destruct k; try discriminate; reflexivity.
      * rewrite HP by reflexivity. apply CI_init.
    + intros G. specialize (Hcl s cl Hs G).
      apply (CI_used _ (fun k r => sent_now s k r acts)).
      2:{ intros k r H. apply sent_now_snoc; [exact H|discriminate]. }
      eapply CI_ext; [exact Hcl|]. intros g. destruct hf; cbn [own_keys b_by_session d_by_session set_dsession set_dsessions]; rewrite keys_zset; fold s0;
        destruct (Z.eqb_spec s s0); try contradiction; reflexivity.
  - intros s cl m. rewrite zget_zset. destruct (s =? s0).
    + intros H. injection H as <-. intros [].
    + intros G Hin. apply has_sent_app. eauto.
  - intros i inv G H. destruct (Hrp i inv G H) as (m & H1 & H2). exists m. split; [apply has_sent_app, H1|exact H2].
  - intros i inv G. apply joined_mono. exact (Hca i inv G).
  - intros s. rewrite zmem_zget, zget_zset. destruct (Z.eqb_spec s s0) as [->|].
    + intros _. rewrite joined_snoc. apply in_or_app. right. left. reflexivity.
    + rewrite <- zmem_zget. intros H. apply joined_mono. auto.
Qed.

Lemma step_leave hf acts n s0 : NInv hf acts n -> NInv hf (acts ++ [ALeave s0]) (fst (nstep n (ALeave s0))).
Proof.
  intros J. pose proof J as [Hb Hd Hnd Sb Sd Hcl Hup Hrp Hca Hj]. destruct Hb as (hb & Jb & Lb). destruct Hd as (hd & Jd & Ld).
  cbn [nstep]. pose proof (bstep_outcome (nt_broker n) (BLeave s0) (proj1 Jb)) as Ob. pose proof (BInv_step _ _ (BLeave s0) Jb) as Jb'.
  pose proof (dstep_outcome (nt_dealer n) (DLeave s0) (proj1 Jd)) as Od. pose proof (DInv_step _ _ (DLeave s0) Jd) as Jd'.
  cbn [bstep dstep] in Ob, Jb', Od, Jd'.
  destruct (b_remove_session (nt_broker n) s0) as [b' rb]. destruct (d_remove_session (nt_dealer n) s0) as [d' rd]. cbn [fst snd] in *.
  destruct (zget s0 (nt_clients n)) as [cl0|] eqn:G0.
  2:{ assert (N1 : zget s0 (b_by_session (nt_broker n)) = None).
      { apply (dmem_false _). change (zmem s0 (b_by_session (nt_broker n)) = false). rewrite Sb. apply (dmem_false _). exact G0. }
      destruct rb as [ub|eb]; cbn [out_of] in Ob; inversion Ob; try congruence.
      destruct rd; apply NInv_quiet; try exact J; intros s9 E9; injection E9 as <-; exact G0. }
  assert (M1 : zmem s0 (b_by_session (nt_broker n)) = true) by (rewrite Sb, zmem_zget, G0; reflexivity).
  assert (M2 : zmem s0 (d_by_session (nt_dealer n)) = true) by (rewrite Sd, zmem_zget, G0; reflexivity).
  rewrite zmem_zget in M1, M2.
  destruct rb as [ub|eb]; cbn [out_of] in Ob; inversion Ob; subst; [|match goal with X : zget s0 _ = None |- _ => rewrite X in M1; discriminate end].
  destruct rd as [ud|ed]; cbn [d_out_of] in Od; inversion Od; subst; [|match goal with X : zget s0 _ = None |- _ => rewrite X in M2; discriminate end].
  cbn [fst].
  match goal with X : b_by_session b' = _ |- _ => rename X into Eb end.
  match goal with X : d_by_session d' = _ |- _ => rename X into Ed end.
  match goal with X : d_pending d' = _ |- _ => rename X into Ep end.
  pose proof (ow_nd_session _ (proj1 (proj2 (proj1 Jb)))) as Nb. pose proof (do_nd_session _ (proj1 (proj2 (proj1 Jd)))) as Nd.
  constructor; cbn [nt_broker nt_dealer nt_clients].
  - eexists. split; [exact Jb'|]. rewrite routings_snoc. cbn [is_route]. etransitivity; [|rewrite Z.add_0_r; exact Lb]. cbn [ids_issued takes_id subscribes]. lia.
  - eexists. split; [exact Jd'|]. rewrite routings_snoc. cbn [is_route]. etransitivity; [|rewrite Z.add_0_r; exact Ld]. cbn [d_ids_issued d_takes_id registers invokes]. lia.
  - apply (NoDup_ddel _). exact Hnd.
  - intros s. rewrite Eb, !zmem_zget, !zget_zdel by assumption. destruct (s =? s0); [reflexivity|]. rewrite <- !zmem_zget. apply Sb.
  - intros s. rewrite Ed, !zmem_zget, !zget_zdel by assumption. destruct (s =? s0); [reflexivity|]. rewrite <- !zmem_zget. apply Sd.
  - intros s cl Hs. rewrite zget_zdel by exact Hnd. destruct (Z.eqb_spec s s0) as [->|Hne]; [discriminate|].
    intros G. specialize (Hcl s cl Hs G). apply (CI_used _ (fun k r => sent_now s k r acts)).
    2:{ intros k r H. apply sent_now_snoc; [exact H|congruence]. }
    unfold pend. rewrite Ep. eapply CI_ext; [exact Hcl|]. intros g. destruct hf; cbn [own_keys]; rewrite ?Eb, ?Ed, keys_zdel by assumption; tauto.
  - intros s cl m. rewrite zget_zdel by exact Hnd. destruct (s =? s0); [discriminate|]. intros G Hin. apply has_sent_app. eauto.
  - intros i inv. rewrite Ep. intros G Hx. destruct (Hrp i inv G Hx) as (m & X1 & X2). exists m. split; [apply has_sent_app, X1|exact X2].
  - intros i inv. rewrite Ep. intros G. apply joined_mono. exact (Hca i inv G).
  - intros s. rewrite zmem_zget, zget_zdel by exact Hnd. destruct (s =? s0); [discriminate|].
    rewrite <- zmem_zget. intros H. apply joined_mono. auto.
Qed.

Lemma step_send hf acts n s0 m0 : NInv hf acts n -> allowed hf (acts ++ [ASend s0 m0]) ->
  NInv hf (acts ++ [ASend s0 m0]) (fst (nstep n (ASend s0 m0))).
Proof.
  intros J A. cbn [nstep]. destruct (zget s0 (nt_clients n)) as [cl0|] eqn:G0; [|apply NInv_quiet; [exact J|discriminate]].
  destruct (send_track (cl_session cl0) m0) as [c' r] eqn:E. cbn [fst].
  assert (J2 : NInv hf (acts ++ [ASend s0 m0]) n) by (apply NInv_quiet; [exact J|discriminate]).
  destruct r as [[]|e].
  - pose proof J2 as [Hb Hd Hnd Sb Sd Hcl Hup Hrp Hca Hj]. constructor; cbn [nt_broker nt_dealer nt_clients]; auto.
    + apply (NoDup_dset _ Zeqb_ok). exact Hnd.
    + intros s. rewrite Sb. symmetry. eapply zmem_zset_same. exact G0.
    + intros s. rewrite Sd. symmetry. eapply zmem_zset_same. exact G0.
    + intros s cl Hs. rewrite zget_zset. destruct (Z.eqb_spec s s0) as [->|Hne]; [|apply (Hcl s cl Hs)].
      intros H. injection H as <-. cbn [cl_session cl_up cl_down].
      eapply CI_used.
      * eapply CI_send; [exact (ni_cl _ _ _ J s0 cl0 Hs G0)|exact E|].
        intros k r Hk Ha (b & m & c & -> & H1 & H2). destruct A as (_ & D). destruct (D s0 Hs) as [[_ A] _]. apply H2.
        apply (A b m c m0 [] k r); [rewrite <- app_assoc; reflexivity|exact Hk|exact H1|exact Ha].
      * cbn beta. intros k r [H|H].
        -- apply sent_now_snoc; [exact H|discriminate].
        -- exists acts, m0, []. split; [reflexivity|]. split; [exact H|tauto].
    + intros s cl m. rewrite zget_zset. destruct (Z.eqb_spec s s0) as [->|Hne]; [|apply Hup].
      intros H. injection H as <-. cbn [cl_up]. intros Hin. apply in_app_or in Hin. destruct Hin as [Hin|[<-|[]]].
      * exact (Hup s0 cl0 m G0 Hin).
      * left. apply in_or_app. right. left. reflexivity.
    + intros s H. apply Hj. rewrite <- H. symmetry. eapply zmem_zset_same. exact G0.
  - apply send_raises in E. subst c'. destruct cl0 as [c U D]. cbn [cl_session cl_up cl_down].
    unfold zset. rewrite (dset_same _) by exact G0. destruct n. exact J2.
Qed.

(** A foreign client sends. *)
Lemma step_put hf acts n s0 m0 : NInv hf acts n -> ~ Gd s0 -> NInv hf (acts ++ [APut s0 m0]) (fst (nstep n (APut s0 m0))).
Proof.
  intros J A. cbn [nstep]. destruct (zget s0 (nt_clients n)) as [cl0|] eqn:G0; [|apply NInv_quiet; [exact J|discriminate]]. cbn [fst].
  assert (J2 : NInv hf (acts ++ [APut s0 m0]) n) by (apply NInv_quiet; [exact J|discriminate]).
  pose proof J2 as [Hb Hd Hnd Sb Sd Hcl Hup Hrp Hca Hj]. constructor; cbn [nt_broker nt_dealer nt_clients]; auto.
  - apply (NoDup_dset _ Zeqb_ok). exact Hnd.
  - intros s. rewrite Sb. symmetry. eapply zmem_zset_same. exact G0.
  - intros s. rewrite Sd. symmetry. eapply zmem_zset_same. exact G0.
  - intros s cl Hs. rewrite zget_zset. destruct (Z.eqb_spec s s0) as [->|Hne]; [contradiction|apply (Hcl s cl Hs)].
  - intros s cl m. rewrite zget_zset. destruct (Z.eqb_spec s s0) as [->|Hne]; [|apply Hup].
    intros H. injection H as <-. cbn [cl_up]. intros Hin. apply in_app_or in Hin. destruct Hin as [Hin|[<-|[]]].
    + exact (Hup s0 cl0 m G0 Hin).
    + right. apply in_or_app. right. left. reflexivity.
  - intros s H. apply Hj. rewrite <- H. symmetry. eapply zmem_zset_same. exact G0.
Qed.
Lemma put_foreign hf acts s0 m0 : allowed hf (acts ++ [APut s0 m0]) -> ~ Gd s0.
Proof. intros (_ & D) H. destruct (D s0 H) as [[X _] _]. apply (X m0), in_or_app. right. left. reflexivity. Qed.

Lemma step_deliver hf acts n s0 : NInv hf acts n ->
  NInv hf (acts ++ [ADeliver s0]) (fst (nstep n (ADeliver s0))) /\
  (forall m r, Gd s0 -> snd (nstep n (ADeliver s0)) = Delivered m r -> message_half m = Some hf -> r = Ok m).
Proof.
  intros J. cbn [nstep].
  assert (J2 : NInv hf (acts ++ [ADeliver s0]) n) by (apply NInv_quiet; [exact J|discriminate]).
  destruct (zget s0 (nt_clients n)) as [[c U [|m0 D]]|] eqn:G0; try (split; [exact J2|intros m r _ Hx; discriminate Hx]).
  pose proof J2 as [Hb Hd Hnd Sb Sd Hcl Hup Hrp Hca Hj].
  assert (C := fun H => CI_deliver _ _ _ _ _ _ _ _ (Hcl s0 _ H G0)). cbn [cl_session cl_up cl_down] in C.
  destruct (receive_message c m0) as [c' r] eqn:E. cbn [fst snd] in *. split.
  - constructor; cbn [nt_broker nt_dealer nt_clients]; auto.
    + apply (NoDup_dset _ Zeqb_ok). exact Hnd.
    + intros s. rewrite Sb. symmetry. eapply zmem_zset_same. exact G0.
    + intros s. rewrite Sd. symmetry. eapply zmem_zset_same. exact G0.
    + intros s cl Hs. rewrite zget_zset. destruct (Z.eqb_spec s s0) as [->|Hne]; [|apply (Hcl s cl Hs)].
      intros H. injection H as <-. exact (proj1 (C Hs)).
    + intros s cl m. rewrite zget_zset. destruct (Z.eqb_spec s s0) as [->|Hne]; [|apply Hup].
      intros H. injection H as <-. cbn [cl_up]. intros Hin. exact (Hup s0 _ m G0 Hin).
    + intros s H. apply Hj. rewrite <- H. symmetry. eapply zmem_zset_same. exact G0.
  - intros m r' Hs H. injection H as <- <-. exact (proj2 (C Hs)).
Qed.

(** What processing one message does to broker and dealer. *)
Lemma route_effect hf b d hb hd s m b' d' posts : BInv b hb -> DInv d hd -> ids_issued hb < ID_MAX -> d_ids_issued hd < ID_MAX ->
  (hf = Rpc -> forall y inv, m = Yield y -> zget (pyint_Z (yi_request y)) (d_pending d) = Some inv -> Gd (pi_caller inv) ->
     wants "progress" (yi_options y) && truthy (pi_receive_progress inv) = false) ->
  route b d s m = (b', d', posts) ->
  (exists hb', BInv b' hb' /\ ids_issued hb' <= ids_issued hb + 1) /\
  (exists hd', DInv d' hd' /\ d_ids_issued hd' <= d_ids_issued hd + 1) /\
  (forall s', zmem s' (b_by_session b') = zmem s' (b_by_session b)) /\
  (forall s', zmem s' (d_by_session d') = zmem s' (d_by_session d)) /\
  (forall s', Forall router_msg (mail posts s')) /\
  (forall s', Gd s' -> half_ok hf s m s' (mail posts s') (pend d s') (pend d' s') (own_keys hf b d s') (own_keys hf b' d' s')) /\
  (forall i inv, zget i (d_pending d') = Some inv -> zget i (d_pending d) = Some inv \/
     exists x, m = Call x /\ pi_caller inv = s /\ truthy (pi_receive_progress inv) = wants "receive_progress" (ca_options x)).
Proof.
  intros Jb Jd Lb Ld Hy Hr.
  assert (HB : for_broker m = true -> d' = d /\ pub_half_ok b b' hb s m posts).
  { intros Hf. destruct m; try discriminate; cbn [route] in Hr.
    - destruct (b_receive_publish b s m) as [b1 r1] eqn:E. injection Hr as <- <- <-. split; [reflexivity|]. apply pub_publish; [exact Jb|lia|exact E].
    - destruct (b_receive_message b s (Subscribe m)) as [b1 r1] eqn:E. injection Hr as <- <- <-. split; [reflexivity|]. apply pub_subscribe; [exact Jb|lia|exact E].
    - destruct (b_receive_message b s (Unsubscribe m)) as [b1 r1] eqn:E. injection Hr as <- <- <-. split; [reflexivity|]. apply pub_unsubscribe; [exact Jb|lia|exact E]. }
  destruct (for_broker m) eqn:Hf.
  - destruct (HB eq_refl) as (-> & (o & Jb') & Sb & Fh & Ho). clear HB.
    split; [eexists; split; [exact Jb'|apply ids_issued_step]|].
    split; [exists hd; split; [exact Jd|lia]|]. split; [exact Sb|]. split; [reflexivity|].
    split; [intros s'; apply (from_half_mail PubSub); exact Fh|]. split; [|auto].
    intros s' _. destruct hf; [apply Ho|]. cbn [own_keys]. destruct (from_half_mail PubSub posts s' Fh).
    apply half_ok_foreign; auto.
  - clear HB. destruct (for_dealer m) eqn:Hg.
    + assert (E : exists r, d_receive_message d s m = (d', r) /\ b' = b /\ posts = match r with Ok rt => [rt] | Raise _ => [] end).
      { destruct m; try discriminate; cbn [route] in Hr;
          match type of Hr with context [d_receive_message d s ?x] => destruct (d_receive_message d s x) as [d1 r1] end;
          injection Hr as <- <- <-; eauto. }
      clear Hr. destruct E as (r & E & -> & ->).
      pose proof (DInv_step d hd (DMsg s m) Jd) as Jd'. pose proof (dstep_outcome d (DMsg s m) (proj1 Jd)) as Od. cbn [dstep] in Jd', Od.
      rewrite E in Jd', Od. cbn [fst snd] in Jd', Od.
      assert (HR : (forall s', zmem s' (d_by_session d') = zmem s' (d_by_session d)) /\
                   Forall (from_half Rpc) (match r with Ok rt => [rt] | Raise _ => [] end)).
      { clear -Od. destruct r as [rt|e]; cbn [d_out_of] in Od; inversion Od; try subst d'; subst; split; try reflexivity; try (constructor; fail).
        all: try (constructor; [|constructor]; split; [try exact Logic.I; try (left; reflexivity); try (right; reflexivity)|reflexivity]; fail).
        - intros s'. cbn [d_by_session]. eapply zmem_zset_same; eassumption.
        - intros s'. match goal with X : d_by_session _ = zset _ _ _ |- _ => rewrite X end. eapply zmem_zset_same; eassumption. }
      destruct HR as [Sd Fh].
      split; [exists hb; split; [exact Jb|lia]|].
      split; [eexists; split; [exact Jd'|apply d_ids_issued_step]|]. split; [reflexivity|]. split; [exact Sd|].
      split; [intros s'; apply (from_half_mail Rpc); exact Fh|]. split.
      * intros s' Hs'. destruct hf; cbn [own_keys].
        -- destruct (from_half_mail Rpc _ s' Fh). apply half_ok_foreign; auto. discriminate.
        -- refine (proj2 (proj2 (rpc_half Gd d hd s m d' r Jd Ld Hg (Hy eq_refl) E)) s' Hs').
      * intros i inv Hi. pose proof (de_pending _ (proj2 (proj2 (proj1 Jd)))) as Np.
        clear -Od Hi Np. destruct r as [rt|e]; cbn [d_out_of] in Od; inversion Od; try subst d'; subst; auto.
        -- cbn [add_call set_dcalls set_dpending set_didgen d_pending] in Hi. rewrite zget_zset in Hi. destruct (i =? id); [|auto].
           injection Hi as <-. right. exists m0. cbn [pi_caller pi_receive_progress]. split; [reflexivity|]. split; [reflexivity|]. apply opt_wants.
        -- cbn [set_dcalls set_dpending d_pending] in Hi. rewrite zget_zdel in Hi by exact Np. destruct (i =? _); [discriminate|auto].
        -- left. congruence.
        -- cbn [set_dcalls set_dpending d_pending] in Hi. rewrite zget_zdel in Hi by exact Np. destruct (i =? _); [discriminate|auto].
        -- cbn [set_dcalls set_dpending d_pending] in Hi. rewrite zget_zdel in Hi by exact Np. destruct (i =? _); [discriminate|auto].
    + assert (E : b' = b /\ d' = d /\ posts = []) by (destruct m; try discriminate; cbn [route] in Hr; injection Hr as <- <- <-; auto).
      destruct E as (-> & -> & ->). split; [exists hb; split; [exact Jb|lia]|].
      split; [exists hd; split; [exact Jd|lia]|]. split; [reflexivity|]. split; [reflexivity|]. split; [constructor|].
      split; [intros s' _; apply half_ok_quiet|auto].
Qed.

Lemma step_route hf acts n s0 : NInv hf acts n -> allowed hf (acts ++ [ARoute s0]) ->
  NInv hf (acts ++ [ARoute s0]) (fst (nstep n (ARoute s0))).
Proof.
  intros J A. cbn [nstep].
  destruct (zget s0 (nt_clients n)) as [[c [|m0 U] D]|] eqn:G0; try (apply NInv_quiet; [exact J|discriminate]).
  destruct (route (nt_broker n) (nt_dealer n) s0 m0) as [[b' d'] posts] eqn:R. cbn [fst].
  pose proof J as [(hb & Jb & Lb) (hd & Jd & Ld) Hnd Sb Sd Hcl Hup Hrp Hca Hj].
  assert (L : routings acts < ID_MAX) by (destruct A as [A _]; rewrite routings_snoc in A; cbn [is_route] in A; lia).
  destruct (route_effect hf _ _ hb hd s0 m0 b' d' posts Jb Jd) as (Rb & Rd & Rsb & Rsd & Rm & Rh & Rp); [lia|lia| |exact R|].
  { intros -> y inv -> Hi Hs. destruct A as (_ & A). destruct (A _ Hs) as (_ & A'). destruct (A' eq_refl) as [_ [P|P]].
    - destruct (truthy (pi_receive_progress inv)) eqn:T; [|apply andb_false_r].
      destruct (Hrp _ inv Hi T) as (m1 & H1 & H2). rewrite (P m1) in H2; [discriminate|]. apply has_sent_app, H1.
    - rewrite (P s0 y); [reflexivity|]. apply has_sent_app. apply (Hup s0 _ _ G0). left. reflexivity. }
  constructor; cbn [nt_broker nt_dealer nt_clients].
  - destruct Rb as (hb' & Jb' & Lb'). exists hb'. split; [exact Jb'|]. rewrite routings_snoc. cbn [is_route]. lia.
  - destruct Rd as (hd' & Jd' & Ld'). exists hd'. split; [exact Jd'|]. rewrite routings_snoc. cbn [is_route]. lia.
  - rewrite keys_post. apply (NoDup_dset _ Zeqb_ok). exact Hnd.
  - intros s. rewrite Rsb, Sb, !zmem_zget, zget_post, zget_zset. destruct (Z.eqb_spec s s0) as [->|]; [rewrite G0; reflexivity|].
    destruct (zget s (nt_clients n)); reflexivity.
  - intros s. rewrite Rsd, Sd, !zmem_zget, zget_post, zget_zset. destruct (Z.eqb_spec s s0) as [->|]; [rewrite G0; reflexivity|].
    destruct (zget s (nt_clients n)); reflexivity.
  - intros s cl Hs. rewrite zget_post, zget_zset. intros H.
    apply (CI_used _ (fun k r => sent_now s k r acts)); [|intros k r Hx; apply sent_now_snoc; [exact Hx|discriminate]].
    pose proof (Rh s Hs) as [Ho Hg]. unfold sent_by in Ho. destruct (Z.eqb_spec s s0) as [->|Hne].
    + injection H as <-. cbn [cl_session cl_up cl_down]. pose proof (Hcl s0 _ Hs G0) as C. cbn [cl_session cl_up cl_down] in C.
      eapply (CI_route _ _ _ [m0] U); [exact C|exact Ho|apply Rm|]. intros tg Ht. apply Hg. intros r g _. apply Ht. left. reflexivity.
    + destruct (zget s (nt_clients n)) as [cl'|] eqn:G; [|discriminate]. injection H as <-. cbn [cl_session cl_up cl_down].
      eapply (CI_route _ _ _ [] (cl_up cl')); [exact (Hcl s cl' Hs G)|exact Ho|apply Rm|]. intros tg Ht. apply Hg. intros r g E. contradiction.
  - intros s cl m. rewrite zget_post, zget_zset. intros H Hin. apply has_sent_app. destruct (Z.eqb_spec s s0) as [->|Hne].
    + injection H as <-. cbn [cl_up] in Hin. apply (Hup s0 _ m G0). right. exact Hin.
    + destruct (zget s (nt_clients n)) as [cl'|] eqn:G; [|discriminate]. injection H as <-. exact (Hup s cl' m G Hin).
  - intros i inv Hi T. destruct (Rp i inv Hi) as [Hi'|(x & -> & Ec & E)].
    + destruct (Hrp i inv Hi' T) as (m & H1 & H2). exists m. split; [apply has_sent_app, H1|exact H2].
    + rewrite Ec. exists x. split; [|congruence]. apply has_sent_app. apply (Hup s0 _ _ G0). left. reflexivity.
  - intros i inv Hi. apply joined_mono. destruct (Rp i inv Hi) as [Hi'|(x & -> & E & _)]; [exact (Hca i inv Hi')|].
    rewrite E. apply Hj. rewrite zmem_zget, G0. reflexivity.
  - intros s H. apply joined_mono. apply Hj. rewrite <- H, !zmem_zget, zget_post, zget_zset.
    destruct (Z.eqb_spec s s0) as [->|]; [rewrite G0; reflexivity|]. destruct (zget s (nt_clients n)); reflexivity.
Qed.

Lemma NInv_init hf : NInv hf [] net_init.
Proof.
  constructor; cbn; try discriminate; try tauto.
  - exists []. split; [exact (brun_inv [])|reflexivity].
  - exists []. split; [exact DInv_init|reflexivity].
  - constructor.
Qed.

Lemma nrun_snoc acts a : nrun (acts ++ [a]) = nstep_h (nrun acts) a.
Proof. unfold nrun. rewrite fold_left_app. reflexivity. Qed.

Lemma NInv_step hf acts n a : NInv hf acts n -> allowed hf (acts ++ [a]) -> NInv hf (acts ++ [a]) (fst (nstep n a)).
Proof.
  intros J A. destruct a; [apply step_join|apply step_leave|apply step_send|apply step_route|apply step_deliver|]; try assumption.
  apply step_put; [exact J|exact (put_foreign _ _ _ _ A)].
Qed.

Lemma NInv_run hf acts : allowed hf acts -> NInv hf acts (fst (nrun acts)).
Proof.
  induction acts as [|a acts IH] using rev_ind; intros A; [apply NInv_init|].
  rewrite nrun_snoc. unfold nstep_h. pose proof (NInv_step hf acts (fst (nrun acts)) a (IH (allowed_prefix _ _ _ A)) A) as H.
  destruct (nstep (fst (nrun acts)) a). exact H.
Qed.

(** Every message of half [hf] that reaches a client of [Gd] is accepted. *)
Theorem deliveries_accepted hf acts s m r : Gd s -> allowed hf acts -> In (ADeliver s, Delivered m r) (snd (nrun acts)) ->
  message_half m = Some hf -> r = Ok m.
Proof.
  intros Hs. induction acts as [|b acts IH] using rev_ind; intros A; [intros []|].
  rewrite nrun_snoc. unfold nstep_h. pose proof (NInv_run hf acts (allowed_prefix _ _ _ A)) as J.
  destruct (nstep (fst (nrun acts)) b) as [n' o] eqn:E. cbn [snd]. intros [H|H] Hm; [|eauto using allowed_prefix].
  injection H as -> ->. destruct (step_deliver hf acts _ s J) as [_ H]. apply H; [exact Hs| |exact Hm]. rewrite E. reflexivity.
Qed.

End Disciplined.

(** Rules that everyone keeps. *)
Lemma all_disciplined hf acts : no_reuse hf acts -> (hf = Rpc -> fresh_sessions acts /\ no_progress acts) -> forall s, disciplined hf s acts.
Proof.
  intros R P s. split.
  - destruct R as [Rp R]. split; [apply Rp|]. intros b m1 c m2 e k r E. exact (R b s m1 c m2 e k r E).
  - intros Eh. destruct (P Eh) as [F Q]. split.
    + unfold admitted_once. exact (proj1 (NoDup_count_occ Z.eq_dec _) F s).
    + destruct Q as [Q|Q]; [left; intros m|right]; apply Q.
Qed.
Definition everyone (s : Z) : Prop := True.
Lemma allowed_everyone hf acts : routings acts <= ID_MAX -> no_reuse hf acts -> (hf = Rpc -> fresh_sessions acts /\ no_progress acts) ->
  allowed everyone hf acts.
Proof. intros L R P. split; [exact L|]. intros s _. apply all_disciplined; assumption. Qed.
