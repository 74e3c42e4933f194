(** * NetworkDelivery: events, invocations and results arrive. *)
From Coq Require Import String Ascii List ZArith Bool Lia.
From Verif Require Import PyBase Messages IdGen DictFacts SpecHistory Session SpecSession SessionRun SessionFacts Joiner.
From Verif Require Import Broker SpecBroker BrokerRun BrokerFacts Dealer SpecDealer DealerRun DealerFacts Network SpecNetwork NetworkFacts NetworkInv NetworkLive NetworkFlow.
Import ListNotations.
Local Open Scope string_scope.
Local Open Scope Z_scope.
Local Open Scope list_scope.

Section Disciplined.
Variable Gd : Z -> Prop.
Local Notation NInv := (NInv Gd).
Local Notation allowed := (allowed Gd).

Lemma receives_accepts hf a1 s x a2 : Gd s -> allowed hf (a1 ++ a2) -> message_half x = Some hf -> receives a1 s x a2 -> accepts a1 s x a2.
Proof.
  intros Hg A Hm (b1 & b2 & r & -> & H). exists b1, b2. split; [reflexivity|]. rewrite H. f_equal.
  apply (deliveries_accepted Gd hf (a1 ++ b1 ++ ADeliver s :: b2) s x r Hg A); [|exact Hm].
  rewrite <- H. rewrite app_assoc. apply (in_trace (a1 ++ b1)).
Qed.
Lemma receives_later a1 b s x a2 : receives (a1 ++ b) s x a2 -> receives a1 s x (b ++ a2).
Proof. intros (b1 & b2 & r & -> & H). exists (b ++ b1), b2, r. rewrite <- app_assoc in *. auto. Qed.

(** After a message of a client that was connected and stayed, it is routed eventually. *)
Lemma sent_routed hf s m (Q : net -> Prop) (ok : message -> Prop) before after cl :
  allowed hf (before ++ ASend s m :: after) -> zget s (nt_clients (at_end before)) = Some cl -> (exists c', send_track (cl_session cl) m = (c', Ok tt)) ->
  (forall pre a post, (before ++ [ASend s m]) ++ after = pre ++ a :: post -> a <> ALeave s -> Q (at_end pre) ->
     (forall cl u U, zget s (nt_clients (at_end pre)) = Some cl -> a = ARoute s -> cl_up cl = u :: U -> ok u) -> Q (at_end (pre ++ [a]))) ->
  Forall ok (cl_up cl) -> Q (at_end (before ++ [ASend s m])) -> ~ In (ALeave s) after -> idle s (at_end (before ++ ASend s m :: after)) ->
  exists a1 a2 cl' U, after = a1 ++ ARoute s :: a2 /\ zget s (nt_clients (at_end ((before ++ [ASend s m]) ++ a1))) = Some cl' /\ cl_up cl' = m :: U /\
    Q (at_end ((before ++ [ASend s m]) ++ a1)).
Proof.
  intros A G [c' E] St Hok HQ Hl Hi. assert (J := NInv_run Gd hf before (allowed_app Gd hf before _ A)). fold (at_end before) in J.
  assert (G' := client_stays Gd hf before (at_end before) (ASend s m) s cl J G ltac:(discriminate)). rewrite <- at_end_snoc in G'.
  cbn [client_step] in G'. rewrite Z.eqb_refl, E in G'. cbn [fst snd] in G'.
  refine (drain_up Gd hf s m Q ok after (before ++ [ASend s m]) _ (cl_up cl) [] _ G' St eq_refl Hok HQ Hl _); rewrite <- app_assoc; assumption.
Qed.
Lemma sent_routed' hf s m before after : allowed hf (before ++ ASend s m :: after) -> connected s (at_end before) = true ->
  (forall c, exists c', send_track c m = (c', Ok tt)) -> ~ In (ALeave s) after -> idle s (at_end (before ++ ASend s m :: after)) ->
  exists a1 a2 cl' U, after = a1 ++ ARoute s :: a2 /\ zget s (nt_clients (at_end ((before ++ [ASend s m]) ++ a1))) = Some cl' /\ cl_up cl' = m :: U.
Proof.
  intros A Hc Ht Hl Hi. apply connected_get in Hc. destruct Hc as [cl G].
  destruct (sent_routed hf s m (fun _ => True) (fun _ => True) before after cl A G (Ht _)) as (a1 & a2 & cl' & U & X & Y & Z & _); auto.
  - apply Forall_forall. auto.
  - exists a1, a2, cl', U. auto.
Qed.

(** A message that is routed to a client that stays is received. *)
Lemma routed_received' hf s0 u U cl0 before a2 : allowed hf (before ++ ARoute s0 :: a2) ->
  zget s0 (nt_clients (at_end before)) = Some cl0 -> cl_up cl0 = u :: U ->
  forall s x, In x (mail (snd (route (nt_broker (at_end before)) (nt_dealer (at_end before)) s0 u)) s) ->
  connected s (at_end before) = true -> ~ In (ALeave s) a2 -> idle s (at_end (before ++ ARoute s0 :: a2)) ->
  receives (before ++ [ARoute s0]) s x a2.
Proof.
  intros A G0 E0 s x Hx Hc Hl Hi. apply connected_get in Hc. destruct Hc as [cl G].
  assert (J := NInv_run Gd hf _ (allowed_app Gd hf _ _ A)). fold (at_end before) in J.
  assert (G' := client_stays Gd hf _ _ (ARoute s0) s cl J G ltac:(discriminate)). rewrite <- at_end_snoc in G'. cbn [client_step] in G'.
  assert (H : In x (cl_down cl ++ mail (posts_of (at_end before) s0) s)).
  { apply in_or_app. right. unfold posts_of. rewrite G0. destruct cl0 as [c U0 D]. cbn in E0. subst U0. exact Hx. }
  refine (drain_down Gd hf s x a2 _ _ _ G' H Hl _).
  - rewrite <- app_assoc. exact A.
  - rewrite <- app_assoc. exact Hi.
Qed.
Lemma routed_received hf s0 u U cl0 before a1 a2 : allowed hf (before ++ a1 ++ ARoute s0 :: a2) ->
  zget s0 (nt_clients (at_end (before ++ a1))) = Some cl0 -> cl_up cl0 = u :: U ->
  forall s x, In x (mail (snd (route (nt_broker (at_end (before ++ a1))) (nt_dealer (at_end (before ++ a1))) s0 u)) s) ->
  connected s (at_end (before ++ a1)) = true -> ~ In (ALeave s) a2 -> idle s (at_end (before ++ a1 ++ ARoute s0 :: a2)) ->
  receives before s x (a1 ++ ARoute s0 :: a2).
Proof.
  intros A G0 E0 s x Hx Hc Hl Hi. rewrite app_assoc in A, Hi.
  replace (a1 ++ ARoute s0 :: a2) with ((a1 ++ [ARoute s0]) ++ a2) by (rewrite <- app_assoc; reflexivity).
  apply receives_later. rewrite app_assoc. exact (routed_received' hf s0 u U cl0 _ a2 A G0 E0 s x Hx Hc Hl Hi).
Qed.

Lemma connected_later hf s before after : allowed hf (before ++ after) -> connected s (at_end before) = true -> ~ In (ALeave s) after ->
  connected s (at_end (before ++ after)) = true.
Proof.
  induction after as [|a after IH] using rev_ind; intros A Hc Hl; [rewrite app_nil_r; exact Hc|]. rewrite app_assoc in *.
  specialize (IH (allowed_prefix _ _ _ _ A) Hc ltac:(intros X; apply Hl, in_or_app; auto)). apply connected_get in IH. destruct IH as [cl G].
  rewrite at_end_snoc. apply connected_get. eexists. refine (client_stays Gd hf _ _ a s cl (NInv_run Gd hf _ (allowed_prefix _ _ _ _ A)) G _).
  intros ->. apply Hl. apply in_or_app. right. left. reflexivity.
Qed.
Lemma holding_connected s m i acts : Gd s -> claims m -> allowed (half_of m) acts -> holding s m i acts -> connected s (at_end acts) = true.
Proof. intros Hg Hm A H. destruct (holding_held Gd s m i acts Hg Hm A H) as (_ & cl & G & _). apply connected_get. eauto. Qed.
Lemma not_in_app {A} (x : A) l1 l2 : ~ In x (l1 ++ l2) -> ~ In x l1 /\ ~ In x l2.
Proof. intros H. split; intros X; apply H, in_or_app; auto. Qed.
Lemma keeps_on_app s i m a1 a2 : keeps_on s i m (a1 ++ a2) -> keeps_on s i m a1 /\ keeps_on s i m a2.
Proof.
  intros [H1 H2]. apply not_in_app in H1. split; split; try tauto; intros u X; apply H2, in_or_app; auto.
Qed.
Lemma mail_in rt posts : In rt posts -> In (rt_message rt) (mail posts (rt_recipient rt)).
Proof. intros H. unfold mail. apply in_map. apply filter_In. split; [exact H|apply Z.eqb_refl]. Qed.

(** ** Events *)
Theorem event_arrives before s q i s' p after : let acts := before ++ ASend s' (Publish p) :: after in
  Gd s -> allowed PubSub acts -> holding s (Subscribe q) i before -> pb_topic p = su_topic q -> connected s' (at_end before) = true ->
  ~ In (ALeave s') after -> keeps_on s i (Subscribe q) after -> idle s' (at_end acts) -> idle s (at_end acts) ->
  exists pid, accepts (before ++ [ASend s' (Publish p)]) s (Event (mkEvent (PyInt i) (PyInt pid) (pb_args p) (pb_kwargs p) [])) after /\
    (wants "acknowledge" (pb_options p) = true -> Gd s' ->
     accepts (before ++ [ASend s' (Publish p)]) s' (Published (mkPublished (pb_request p) (PyInt pid))) after).
Proof.
  intros acts Hg A Hh Ht Hc Hl Hk Hi' Hi. set (X := before ++ [ASend s' (Publish p)]).
  assert (EX : acts = X ++ after) by (unfold X, acts; rewrite <- app_assoc; reflexivity).
  destruct (sent_routed' PubSub s' (Publish p) before after A Hc) as (a1 & a2 & cl' & U & -> & G' & EU); auto.
  { intros c. cbn [send_track]. destruct (truthy _); eauto. }
  fold X in G'. rewrite EX in A, Hi, Hi'. assert (A1 : allowed PubSub (X ++ a1)) by (rewrite app_assoc in A; exact (allowed_app _ _ _ _ A)).
  apply keeps_on_app in Hk. destruct Hk as [Hk1 Hk2].
  assert (H1 : holding s (Subscribe q) i (X ++ a1)).
  { apply holding_app; [|exact Hk1]. unfold X. apply holding_app; [exact Hh|]. split; [intros [E|[]]; discriminate|]. intros u [[= _ <-]|[]]. reflexivity. }
  assert (Cs := holding_connected s (Subscribe q) i _ Hg Logic.I A1 H1).
  assert (Cs' : connected s' (at_end (X ++ a1)) = true) by (apply connected_get; eauto).
  destruct (holding_held Gd s (Subscribe q) i _ Hg Logic.I A1 H1) as [(own & l & sub & O1 & O2 & O3 & O4) _].
  assert (J := NInv_run Gd PubSub _ A1). fold (at_end (X ++ a1)) in J. destruct (ni_b _ _ _ _ J) as (hb & Jb & _).
  pose proof (bstep_outcome (nt_broker (at_end (X ++ a1))) (BPub s' p) (proj1 Jb)) as Ho. cbn [bstep] in Ho.
  assert (R := routed_received PubSub s' (Publish p) U cl' X a1 a2 A G' EU). cbn [route] in R.
  destruct (b_receive_publish (nt_broker (at_end (X ++ a1))) s' p) as [b' r]. cbn [fst snd] in *.
  assert (Mb := ni_sync_b _ _ _ _ J s'). rewrite !zmem_zget in Mb. unfold connected in Cs'. rewrite zmem_zget in Cs'. rewrite Cs' in Mb.
  destruct r as [pub|e]; cbn [out_of] in Ho; inversion Ho as [| | | | | | | | | |s0 m0 e0 N E1 E2 E3|s0 m0 own0 g pid N1 N2 E1 E2 E3]; subst; [|rewrite N in Mb; discriminate].
  destruct (proj1 Jb) as (W & O & SS). destruct (ow_own _ O _ _ _ _ O1 O2) as (sub' & P1 & P2 & P3). rewrite O3 in P1. injection P1 as <-.
  assert (T : tget (pb_topic p) (b_by_topic (nt_broker (at_end (X ++ a1)))) = Some l).
  { rewrite Ht, <- O4. apply (sh_live _ W _ _ O3). intros E. rewrite E in P3. destruct P3. }
  exists pid. rewrite T, O3 in R. cbn [option_map pu_ack pu_event pu_recipients] in R. apply not_in_app in Hl. destruct Hk2 as [Hk2 _].
  assert (Ls : ~ In (ALeave s) a2) by (intros Y; apply Hk2; right; exact Y). assert (Ls' : ~ In (ALeave s') a2) by (intros Y; apply Hl; right; exact Y).
  split.
  - apply (receives_accepts PubSub); [exact Hg|exact A|reflexivity|]. apply R; [|exact Cs|exact Ls|exact Hi]. rewrite <- P2.
    apply (mail_in (mkRouted (Event (mkEvent (PyInt (sub_id sub)) (PyInt pid) (pb_args p) (pb_kwargs p) [])) s)). apply in_or_app. right. apply in_map_iff.
    exists s. split; [reflexivity|exact P3].
  - intros Hw Hg'. apply (receives_accepts PubSub); [exact Hg'|exact A|reflexivity|]. apply R; [|unfold connected; rewrite zmem_zget; exact Cs'|exact Ls'|exact Hi'].
    apply (mail_in (mkRouted (Published (mkPublished (pb_request p) (PyInt pid))) s')). apply in_or_app. left.
    unfold wants in Hw. unfold sget_default. destruct (sget "acknowledge" (pb_options p)); [rewrite Hw; left; reflexivity|discriminate].
Qed.

(** ** Giving up what one holds is answered *)
Definition end_answer (u : message) : message :=
  match u with
  | Unsubscribe x => Unsubscribed (mkUnsubscribed (us_request x))
  | Unregister x => Unregistered (mkUnregistered (ur_request x))
  | _ => u
  end.
Theorem end_answered before s m i u after : let acts := before ++ ASend s u :: after in
  Gd s -> claims m -> allowed (half_of m) acts -> holding s m i before -> ends i m u = true -> ~ In (ALeave s) after -> idle s (at_end acts) ->
  accepts (before ++ [ASend s u]) s (end_answer u) after.
Proof.
  intros acts Hg Hm A Hh He Hl Hi. set (X := before ++ [ASend s u]). assert (A0 := allowed_app _ _ before _ A).
  assert (EX : acts = X ++ after) by (unfold X, acts; rewrite <- app_assoc; reflexivity).
  destruct (holding_held Gd s m i before Hg Hm A0 Hh) as (H0 & cl & G & Hcl).
  destruct (sent_routed (half_of m) s u (fun n => held n s m i) (fun x => ends i m x = false) before after cl) as (a1 & a2 & cl' & U & -> & G' & EU & H1); auto.
  - destruct m; try contradiction; destruct u; try discriminate; cbn [send_track]; eauto.
  - intros pre a post E Hne Hq Hr. apply (held_step Gd (half_of m)); [|exact Hne|exact Hr|exact Hq].
    apply (allowed_app _ _ _ post). rewrite <- app_assoc. cbn [app]. rewrite <- E. fold X. rewrite <- EX. exact A.
  - apply (held_step Gd (half_of m)); [|discriminate|discriminate|exact H0]. apply (allowed_app _ _ _ after). fold X. rewrite <- EX. exact A.
  - fold X in G', H1. rewrite EX in A, Hi. assert (A1 : allowed (half_of m) (X ++ a1)) by (rewrite app_assoc in A; exact (allowed_app _ _ _ _ A)).
    assert (R := routed_received (half_of m) s u U cl' X a1 a2 A G' EU s (end_answer u)).
    assert (J := NInv_run _ _ _ A1). fold (at_end (X ++ a1)) in J. destruct (ni_b _ _ _ _ J) as (hb & Jb & _). destruct (ni_d _ _ _ _ J) as (hd & Jd & _).
    apply (receives_accepts (half_of m)); [exact Hg|exact A|destruct m; try contradiction; destruct u; try discriminate; reflexivity|].
    apply R; [|apply connected_get; eauto|apply not_in_app in Hl; intros Y; apply Hl; right; exact Y|exact Hi]. clear R.
    destruct m; try contradiction; destruct u; try discriminate; cbn [ends] in He; apply Z.eqb_eq in He; cbn [route].
    + pose proof (bstep_outcome _ (BMsg s (Unsubscribe m0)) (proj1 Jb)) as Ho. cbn [bstep] in Ho. destruct (b_receive_message _ s (Unsubscribe m0)) as [b' r].
      cbn [fst snd] in *. destruct H1 as (own & l & sub & O1 & O2 & O3 & O4).
      destruct r as [rt|e]; cbn [out_of] in Ho; inversion Ho; subst; try congruence.
      * apply (mail_in (mkRouted (Unsubscribed (mkUnsubscribed (us_request m0))) s)). left. reflexivity.
      * match goal with N : forall own, _ -> _ = None |- _ => rewrite (N own O1) in O2; discriminate end.
    + pose proof (dstep_outcome _ (DMsg s (Unregister m0)) (proj1 Jd)) as Ho. cbn [dstep] in Ho. destruct (d_receive_message _ s (Unregister m0)) as [d' r].
      cbn [fst snd] in *. destruct H1 as (own & l & reg & O1 & O2 & O3 & O4).
      destruct r as [rt|e]; cbn [d_out_of] in Ho; inversion Ho; subst.
      * apply (mail_in (mkRouted (Unregistered (mkUnregistered (ur_request m0))) s)). left. reflexivity.
      * match goal with N : forall own, _ -> _ = None |- _ => rewrite (N own O1) in O2; discriminate end.
      * contradiction.
Qed.

(** ** Invocations and their answers *)
Definition pending (n : net) (j : Z) (inv : pending_invocation) : Prop := zget j (d_pending (nt_dealer n)) = Some inv.

Lemma pending_outcome d hd o d' r j inv : DInv d hd -> d_room o hd -> doutcome d o d' r ->
  (forall s u, o = DMsg s u -> may_end (pi_callee inv) j s u = false) -> zget j (d_pending d) = Some inv -> zget j (d_pending d') = Some inv.
Proof.
  intros ((W & O & SS) & _ & _ & T) [L0 L] Ho Hr H. specialize (T ltac:(lia)).
  destruct Ho; cbv beta iota in L; try exact H; cbn [d_pending add_call set_dcalls set_dpending set_didgen]; try congruence.
  - rewrite zget_zset. destruct (Z.eqb_spec j id) as [->|]; [|exact H]. exfalso. pose proof (dt_pending _ _ T _ _ H). pose proof (dt_gen _ _ T).
    match goal with X : next_id _ = _ |- _ => unfold next_id in X; destruct (Z.eqb_spec (d_idgen d) ID_MAX); [lia|]; injection X as _ X end. lia.
  - specialize (Hr _ _ eq_refl). cbn [may_end replies] in Hr. rewrite zget_zdel by exact (de_pending _ SS).
    destruct (Z.eqb_spec j (pyint_Z (yi_request m))) as [Ej|]; [exfalso|exact H]. rewrite <- Ej, Z.eqb_refl, andb_true_r in Hr. apply Z.eqb_neq in Hr. congruence.
  - specialize (Hr _ _ eq_refl). cbn [may_end replies] in Hr. rewrite zget_zdel by exact (de_pending _ SS).
    destruct (Z.eqb_spec j (pyint_Z (yi_request m))) as [Ej|]; [exfalso|exact H]. rewrite <- Ej, Z.eqb_refl, andb_true_r in Hr. apply Z.eqb_neq in Hr. congruence.
  - specialize (Hr _ _ eq_refl). cbn [may_end replies] in Hr. rewrite zget_zdel by exact (de_pending _ SS).
    destruct (Z.eqb_spec j (pyint_Z (er_request m))) as [->|]; [|exact H]. rewrite Z.eqb_refl, andb_true_r in Hr. apply Z.eqb_neq in Hr. contradiction.
Qed.

Lemma pending_step acts a j inv : allowed Rpc (acts ++ [a]) ->
  (forall s0 cl u U, a = ARoute s0 -> zget s0 (nt_clients (at_end acts)) = Some cl -> cl_up cl = u :: U -> may_end (pi_callee inv) j s0 u = false) ->
  pending (at_end acts) j inv -> pending (at_end (acts ++ [a])) j inv.
Proof.
  unfold pending. intros A Hr H. assert (J := NInv_run Gd Rpc acts (allowed_prefix _ _ _ _ A)). rewrite at_end_snoc. fold (at_end acts) in J. set (n := at_end acts) in *.
  pose proof J as [(hb & Jb & Lb) (hd & Jd & Ld) _ _ _ _ _ _ _ _].
  assert (Ln : routings acts + (if is_route a then 1 else 0) <= ID_MAX) by (destruct A as [A _]; rewrite routings_snoc in A; exact A).
  assert (K : forall o d' r, d_room o hd -> doutcome (nt_dealer n) o d' r -> (forall s u, o = DMsg s u -> may_end (pi_callee inv) j s u = false) -> zget j (d_pending d') = Some inv).
  { intros o d' r Hr0 Ho Hs. exact (pending_outcome _ hd o d' r j inv Jd Hr0 Ho Hs H). }
  destruct a as [det|s0|s0 m0|s0|s0|s0 m0]; cbn [nstep].
  - pose proof (dstep_outcome (nt_dealer n) (DJoin det) (proj1 Jd)) as Od. cbn [dstep] in Od.
    destruct (b_add_session (nt_broker n) det) as [b' rb], (d_add_session (nt_dealer n) det) as [d' rd]. destruct rb; [|exact H]. destruct rd; [|exact H].
    cbn [fst snd is_route] in *. eapply K; [|exact Od|discriminate]. split; [lia|exact Logic.I].
  - pose proof (dstep_outcome (nt_dealer n) (DLeave s0) (proj1 Jd)) as Od. cbn [dstep] in Od.
    destruct (b_remove_session (nt_broker n) s0) as [b' rb], (d_remove_session (nt_dealer n) s0) as [d' rd]. destruct rb; [|exact H]. destruct rd; [|exact H].
    cbn [fst snd is_route] in *. eapply K; [|exact Od|discriminate]. split; [lia|exact Logic.I].
  - destruct (zget s0 (nt_clients n)) as [cl|]; [|exact H]. destruct (send_track _ m0). exact H.
  - destruct (zget s0 (nt_clients n)) as [[c [|u U] D]|] eqn:G; try exact H. destruct (route (nt_broker n) (nt_dealer n) s0 u) as [[b' d'] posts] eqn:R.
    destruct (route_outcome _ _ _ _ _ _ _ (proj1 Jb) (proj1 Jd) R) as [_ Rd]. cbn [fst nt_dealer]. destruct Rd as [->|[r Ho]]; [exact H|].
    cbn [is_route] in Ln. eapply K; [apply d_room_lt; lia|exact Ho|]. intros s u' [= -> ->]. exact (Hr s _ u' U eq_refl G eq_refl).
  - destruct (zget s0 (nt_clients n)) as [[c U [|u D]]|]; try exact H. destruct (receive_message c u). exact H.
  - destruct (zget s0 (nt_clients n)) as [cl|]; exact H.
Qed.

(** The call reaches the dealer while [s] holds the registration. *)
Lemma call_reaches before s q i s' c after : let acts := before ++ ASend s' (Call c) :: after in let X := before ++ [ASend s' (Call c)] in
  Gd s -> Gd s' -> allowed Rpc acts -> holding s (Register q) i before -> ca_procedure c = rg_procedure q -> connected s' (at_end before) = true ->
  ~ In (ALeave s') after -> keeps_on s i (Register q) after -> idle s' (at_end acts) -> idle s (at_end acts) ->
  exists a1 a2 j inv, after = a1 ++ a2 /\ receives (X ++ a1) s (invocation_for c j i) a2 /\
    pi_request inv = ca_request c /\ pi_caller inv = s' /\ pi_callee inv = s /\ pending (at_end (X ++ a1)) j inv.
Proof.
  intros acts X Hg Hg' A Hh Ht Hc Hl Hk Hi' Hi.
  assert (EX : acts = X ++ after) by (unfold X, acts; rewrite <- app_assoc; reflexivity).
  destruct (sent_routed' Rpc s' (Call c) before after A Hc) as (a1 & a2 & cl' & U & -> & G' & EU); auto.
  { intros x. cbn [send_track]. eauto. }
  fold X in G'. rewrite EX in A, Hi, Hi'. assert (A1 : allowed Rpc (X ++ a1)) by (rewrite app_assoc in A; exact (allowed_app _ _ _ _ A)).
  apply keeps_on_app in Hk. destruct Hk as [Hk1 Hk2].
  assert (H1 : holding s (Register q) i (X ++ a1)).
  { apply holding_app; [|exact Hk1]. unfold X. apply holding_app; [exact Hh|]. split; [intros [E|[]]; discriminate|]. intros u [[= _ <-]|[]]. reflexivity. }
  assert (Cs := holding_connected s (Register q) i _ Hg Logic.I A1 H1).
  destruct (holding_held Gd s (Register q) i _ Hg Logic.I A1 H1) as [(own & l & reg & O1 & O2 & O3 & O4) _].
  assert (J := NInv_run Gd Rpc _ A1). fold (at_end (X ++ a1)) in J. destruct (ni_d _ _ _ _ J) as (hd & Jd & _).
  assert (CIv := li_calls _ _ _ _ _ (LInv_run Gd Rpc _ A1) eq_refl). fold (at_end (X ++ a1)) in CIv.
  assert (NC : zzget (s', pyint_Z (ca_request c)) (d_call_ids (nt_dealer (at_end (X ++ a1)))) = None).
  { destruct (zzget _ _) eqn:E; [|reflexivity]. exfalso. apply (ca_new _ _ _ CIv s' cl' (pyint_Z (ca_request c)) Hg' G'); [rewrite zzmem_zzget, E; reflexivity|].
    rewrite EU. left. reflexivity. }
  pose proof (dstep_outcome (nt_dealer (at_end (X ++ a1))) (DMsg s' (Call c)) (proj1 Jd)) as Ho. cbn [dstep] in Ho.
  destruct (proj1 Jd) as (W & O & SS). destruct (do_own _ O _ _ _ _ O1 O2) as (reg' & P1 & P2 & P3). rewrite O3 in P1. injection P1 as <-.
  assert (T : tget (ca_procedure c) (d_by_procedure (nt_dealer (at_end (X ++ a1)))) = Some l).
  { rewrite Ht, <- O4. apply (ds_live _ W _ _ O3). congruence. }
  exists (a1 ++ [ARoute s']), a2.
  assert (A' := A). rewrite app_assoc in A'. assert (R := routed_received' Rpc s' (Call c) U cl' (X ++ a1) a2 A' G' EU s). cbn [route] in R.
  assert (E' : nt_dealer (at_end (X ++ (a1 ++ [ARoute s']))) = fst (d_receive_message (nt_dealer (at_end (X ++ a1))) s' (Call c))).
  { rewrite app_assoc, at_end_snoc. cbn [nstep]. rewrite G'. destruct cl' as [c0 U0 D0]. cbn [cl_up] in EU. subst U0. cbn [route].
    destruct (d_receive_message _ s' (Call c)). reflexivity. }
  unfold pending. rewrite E'. destruct (d_receive_message (nt_dealer (at_end (X ++ a1))) s' (Call c)) as [d' r]. cbn [fst snd] in *.
  destruct r as [rt|e]; cbn [d_out_of] in Ho; inversion Ho; subst; try congruence; try contradiction.
  match goal with Y : reg_registrants ?rg = [(?cc, ?cc)], Z : dat _ ?l0 = Some ?rg |- _ =>
    assert (l0 = l) by congruence; subst l0; assert (rg = reg) by congruence; subst rg; rewrite P3 in Y; injection Y as <- end.
  exists id. eexists. split; [rewrite <- app_assoc; reflexivity|]. split; [|cbn [d_pending add_call set_dcalls set_dpending set_didgen]; rewrite zget_zset, Z.eqb_refl; repeat split; reflexivity].
  rewrite app_assoc. apply R; [|exact Cs| |first [exact Hi|rewrite app_assoc in Hi; exact Hi]].
  - apply (mail_in (mkRouted (invocation_for c id (reg_id reg)) s)). left. reflexivity.
  - destruct Hk2 as [Hk2 _]. intros Y. apply Hk2. right. exact Y.
Qed.

(** The answer of the callee reaches the caller. *)
Lemma reply_returns before s s' c u after j inv : let acts := before ++ ASend s u :: after in let X := before ++ [ASend s u] in
  Gd s' -> allowed Rpc acts -> pending (at_end before) j inv -> pi_request inv = ca_request c -> pi_caller inv = s' -> pi_callee inv = s ->
  connected s' (at_end before) = true -> (exists cl c', zget s (nt_clients (at_end before)) = Some cl /\ send_track (cl_session cl) u = (c', Ok tt)) ->
  replies j u = true -> no_reply s j (before ++ after) -> ~ In (ALeave s) after -> ~ In (ALeave s') after ->
  idle s (at_end acts) -> idle s' (at_end acts) -> accepts X s' (reply_to c u) after.
Proof.
  intros acts X Hg' A Hp Hq Hcr Hce Hc (cl & c' & G & Et) Hu Hno Hl Hl' Hi Hi'.
  assert (EX : acts = X ++ after) by (unfold X, acts; rewrite <- app_assoc; reflexivity).
  assert (Sent : forall pre a post s0 cl0 w, X ++ after = pre ++ a :: post -> zget s0 (nt_clients (at_end pre)) = Some cl0 -> In w (cl_up cl0) ->
     s0 = s /\ w = u \/ may_end s j s0 w = false).
  { intros pre a post s0 cl0 w E G0 Hin. assert (Ap : allowed Rpc pre) by (apply (allowed_app _ _ _ (a :: post)); rewrite <- E, <- EX; exact A).
    assert (H := ni_up _ _ _ _ (NInv_run Gd Rpc pre Ap) s0 cl0 w G0 Hin). assert (H' : has_sent (X ++ after) s0 w) by (rewrite E; apply has_sent_app, H).
    assert (Y : forall y, In y (X ++ after) -> y = ASend s u \/ In y (before ++ after)).
    { intros y Y. unfold X in Y. rewrite <- app_assoc in Y. apply in_app_or in Y. rewrite in_app_iff. destruct Y as [Y|[Y|Y]]; auto. }
    destruct H' as [H'|H']; destruct (Y _ H') as [Z0|Z0]; try (right; apply (Hno s0); unfold has_sent; tauto); [injection Z0 as -> ->; auto|discriminate]. }
  destruct (sent_routed Rpc s u (fun n => pending n j inv) (fun w => may_end s j s w = false) before after cl) as (a1 & a2 & cl' & U & -> & G' & EU & H1); eauto.
  - intros pre a post E Hne Hq' Hr. apply pending_step; [apply (allowed_app _ _ _ post); rewrite <- app_assoc; cbn [app]; rewrite <- E; fold X; rewrite <- EX; exact A| |exact Hq'].
    rewrite Hce. intros s0 cl0 w U0 -> G0 E0. destruct (Z.eq_dec s0 s) as [->|Hs]; [exact (Hr cl0 w U0 G0 eq_refl E0)|].
    destruct (Sent pre _ post s0 cl0 w E G0) as [[? _]|?]; [rewrite E0; left; reflexivity|contradiction|assumption].
  - apply Forall_forall. intros w Hin. apply (Hno s). apply has_sent_app.
    exact (ni_up _ _ _ _ (NInv_run Gd Rpc before (allowed_app _ _ _ _ A)) s cl w G Hin).
  - apply pending_step; [apply (allowed_app _ _ _ after); fold X; rewrite <- EX; exact A|discriminate|exact Hp].
  - fold X in G', H1. rewrite EX in A, Hi'. assert (A1 : allowed Rpc (X ++ a1)) by (rewrite app_assoc in A; exact (allowed_app _ _ _ _ A)).
    apply not_in_app in Hl'. assert (Hl2 : ~ In (ALeave s') a2) by (intros Y; apply Hl'; right; exact Y).
    assert (Cs' : connected s' (at_end (X ++ a1)) = true).
    { apply (connected_later Rpc s' X a1 A1); [|apply Hl']. apply (connected_later Rpc s' before [ASend s u]); [exact (allowed_app _ _ _ _ A1)|exact Hc|intros [Y|[]]; discriminate]. }
    assert (R := routed_received Rpc s u U cl' X a1 a2 A G' EU s' (reply_to c u)).
    assert (J := NInv_run Gd Rpc _ A1). fold (at_end (X ++ a1)) in J. destruct (ni_d _ _ _ _ J) as (hd & Jd & _).
    assert (CIv := li_calls _ _ _ _ _ (LInv_run Gd Rpc _ A1) eq_refl). fold (at_end (X ++ a1)) in CIv.
    assert (ZC := ca_pending _ _ _ CIv j inv H1). rewrite Hcr in ZC. specialize (ZC Hg' Cs'). unfold pending in H1.
    apply (receives_accepts Rpc); [exact Hg'|exact A|destruct u; try discriminate; reflexivity|].
    apply R; [|exact Cs'|exact Hl2|exact Hi']. clear R.
    destruct u; try discriminate; cbn [route].
    + (* error *) cbn [replies] in Hu. apply andb_true_iff in Hu. destruct Hu as [Hu1 Hu2]. apply Z.eqb_eq in Hu1, Hu2. rewrite <- Hu2 in H1.
      pose proof (dstep_outcome _ (DMsg s (Error m)) (proj1 Jd)) as Ho. cbn [dstep] in Ho. destruct (d_receive_message _ s (Error m)) as [d' r].
      cbn [fst snd] in *. destruct r as [rt|e]; cbn [d_out_of] in Ho; inversion Ho; subst; try contradiction.
      * match goal with Y : zget _ _ = Some ?v |- _ => rewrite H1 in Y; injection Y as <- end. 
        cbn [reply_to]. rewrite <- Hq. apply (mail_in (mkRouted _ (pi_caller inv))). left. reflexivity.
      * match goal with Y : _ = 68 -> _ |- _ => rewrite (Y Hu1) in H1; discriminate end.
    + (* yield *) cbn [replies] in Hu. apply Z.eqb_eq in Hu. rewrite <- Hu in H1.
      assert (Hw : wants "progress" (yi_options m) && truthy (pi_receive_progress inv) = false).
      { destruct (wants "progress" (yi_options m)) eqn:Ew; [|reflexivity]. destruct (truthy (pi_receive_progress inv)) eqn:Er; [|reflexivity]. exfalso.
        destruct A1 as (_ & Ap). destruct (Ap s' Hg') as (_ & Aq). destruct (Aq eq_refl) as [_ [Np|Np]].
        - destruct (ni_rp _ _ _ _ J _ _ H1 Er) as (c1 & Hin & Hw). rewrite Hcr in Hin. rewrite (Np c1 Hin) in Hw. discriminate.
        - rewrite (Np s m) in Ew; [discriminate|]. left. unfold X. apply in_or_app. left. apply in_or_app. right. left. reflexivity. }
      pose proof (dstep_outcome _ (DMsg s (Yield m)) (proj1 Jd)) as Ho. cbn [dstep] in Ho. destruct (d_receive_message _ s (Yield m)) as [d' r].
      cbn [fst snd] in *. destruct r as [rt|e]; cbn [d_out_of] in Ho; inversion Ho; subst; try contradiction.
      * exfalso. match goal with Y : zget _ _ = Some ?v |- _ => rewrite H1 in Y; injection Y as <- end. unfold wants in Hw.
        match goal with Y : sget _ _ = Some ?v |- _ => rewrite Y in Hw end.
        match goal with Y : truthy ?v = true, Z : truthy (pi_receive_progress inv) = true |- _ => rewrite Y, Z in Hw end. discriminate.
      * match goal with Y : zget _ _ = Some ?v |- _ => rewrite H1 in Y; injection Y as <- end.
        cbn [reply_to]. rewrite <- Hq. apply (mail_in (mkRouted _ (pi_caller inv))). left. reflexivity.
      * exfalso. match goal with Y : forall inv, _ -> pi_callee inv <> _ |- _ => exact (Y _ H1 eq_refl) end.
      * exfalso. match goal with Y : zget _ _ = Some ?v |- _ => rewrite H1 in Y; injection Y as <- end. congruence.
Qed.

(** The callee remembers an invocation until it answers. *)
Lemma invoked_stays c u c' r j : send_track c u = (c', r) -> replies j u = false -> smem j (invocation_requests c) = true -> smem j (invocation_requests c') = true.
Proof.
  assert (S : forall x l, x <> j -> smem j l = true -> smem j (srem x l) = true).
  { intros x l Hne. induction l as [|y l IH]; [discriminate|]. cbn [smem existsb srem]. intros H. destruct (Z.eqb_spec x y) as [->|].
    - destruct (Z.eqb_spec j y); [congruence|exact H].
    - cbn [existsb]. apply orb_true_iff in H. apply orb_true_iff. destruct H; [auto|right; apply IH; exact H]. }
  intros E Hr Hj. destruct u; cbn [send_track] in E; try (injection E as <- _; exact Hj).
  - destruct (pyint_Z (er_type m) =? T_INVOCATION) eqn:Et; cbn [negb] in E; injection E as <- _; [|exact Hj]. cbn [invocation_requests set_invocation_requests].
    apply S; [|exact Hj]. cbn [replies] in Hr. change 68 with T_INVOCATION in Hr. rewrite Et in Hr. apply Z.eqb_neq. exact Hr.
  - destruct (truthy _); injection E as <- _; exact Hj.
  - destruct (smem (pyint_Z (yi_request m)) (invocation_requests c)); injection E as <- _; [|exact Hj]. cbn [invocation_requests set_invocation_requests].
    apply S; [|exact Hj]. cbn [replies] in Hr. apply Z.eqb_neq. exact Hr.
Qed.
Lemma invoked_received c m j : smem j (invocation_requests c) = true -> smem j (invocation_requests (fst (receive_message c m))) = true.
Proof.
  intros H. destruct m; cbn [receive_message]; try exact H.
  all: repeat match goal with |- context [if ?b then _ else _] => destruct b | |- context [match ?b with Some _ => _ | None => _ end] => destruct b end; try exact H.
  all: try (unfold receive_error; repeat match goal with |- context [if ?b then _ else _] => destruct b end; exact H).
  cbn [fst invocation_requests set_invocation_requests]. unfold sadd. destruct (smem (pyint_Z _) _); [exact H|]. unfold smem in *. rewrite existsb_app, H. reflexivity.
Qed.
Definition invoked (n : net) (s j : Z) : Prop := exists cl, zget s (nt_clients n) = Some cl /\ smem j (invocation_requests (cl_session cl)) = true.
Lemma invoked_later hf s j : forall after before, allowed hf (before ++ after) -> invoked (at_end before) s j -> no_reply s j after -> ~ In (ALeave s) after ->
  invoked (at_end (before ++ after)) s j.
Proof.
  induction after as [|a after IH]; intros before A (cl & G & H) Hn Hl; [rewrite app_nil_r; exists cl; auto|].
  replace (before ++ a :: after) with ((before ++ [a]) ++ after) in * by (rewrite <- app_assoc; reflexivity).
  apply IH; [exact A| |intros s0 u Y; apply (Hn s0); destruct Y; [left|right]; right; assumption|intros Y; apply Hl; right; exact Y].
  assert (J := NInv_run Gd hf before (allowed_prefix _ _ _ _ (allowed_app _ _ _ _ A))). fold (at_end before) in J.
  rewrite at_end_snoc. eexists. split; [exact (client_stays Gd hf before _ a s cl J G (fun E => Hl (or_introl E)))|].
  destruct a as [det|s0|s0 m0|s0|s0|s0 m0]; cbn [client_step]; try exact H.
  - destruct (Z.eqb_spec s0 s) as [->|]; [|exact H]. cbn [cl_session]. destruct (send_track (cl_session cl) m0) as [c' r] eqn:E. cbn [fst].
    refine (invoked_stays _ _ _ _ _ E _ H). pose proof (Hn s m0 (or_introl (or_introl eq_refl))) as N. destruct m0; try exact N. cbn [may_end] in N. rewrite Z.eqb_refl in N. exact N.
  - destruct (s0 =? s); [|exact H]. destruct (cl_down cl); [exact H|]. cbn [cl_session]. apply invoked_received. exact H.
  - destruct (s0 =? s); exact H.
Qed.
Lemma pending_later j inv : forall after before, allowed Rpc (before ++ after) -> pending (at_end before) j inv -> no_reply (pi_callee inv) j (before ++ after) ->
  pending (at_end (before ++ after)) j inv.
Proof.
  induction after as [|a after IH]; intros before A H Hn; [rewrite app_nil_r; exact H|].
  replace (before ++ a :: after) with ((before ++ [a]) ++ after) in * by (rewrite <- app_assoc; reflexivity).
  apply IH; [exact A| |exact Hn]. apply pending_step; [exact (allowed_app _ _ _ _ A)| |exact H].
  intros s0 cl u U -> G E. apply (Hn s0). apply has_sent_app, has_sent_app.
  refine (ni_up _ _ _ _ (NInv_run Gd Rpc before (allowed_app _ _ _ _ (allowed_app _ _ _ _ A))) s0 cl u G _). rewrite E. left. reflexivity.
Qed.
Lemma no_reply_incl s0 j a1 a2 : (forall x, In x a2 -> In x a1) -> no_reply s0 j a1 -> no_reply s0 j a2.
Proof. intros H N s u [Y|Y]; apply (N s); [left|right]; apply H, Y. Qed.

Theorem call_round_trip_then before s q i s' c after : let acts := before ++ ASend s' (Call c) :: after in
  Gd s -> Gd s' -> allowed Rpc acts -> holding s (Register q) i before -> ca_procedure c = rg_procedure q -> connected s' (at_end before) = true ->
  ~ In (ALeave s') after -> keeps_on s i (Register q) after -> idle s' (at_end acts) -> idle s (at_end acts) ->
  exists j a1 a2, let iv := invocation_for c j i in let X := before ++ ASend s' (Call c) :: a1 in after = a1 ++ ADeliver s :: a2 /\
    snd (nstep (at_end X) (ADeliver s)) = Delivered iv (Ok iv) /\
    forall c1 u c2, let all := X ++ ADeliver s :: c1 ++ ASend s u :: c2 in allowed Rpc all -> replies j u = true ->
      no_reply s j (X ++ ADeliver s :: c1 ++ c2) -> ~ In (ALeave s) (c1 ++ c2) -> ~ In (ALeave s') (c1 ++ c2) ->
      idle s (at_end all) -> idle s' (at_end all) ->
      accepts (X ++ ADeliver s :: c1 ++ [ASend s u]) s' (reply_to c u) c2.
Proof.
  intros acts Hg Hg' A Hh Ht Hc Hl Hk Hi' Hi.
  destruct (call_reaches before s q i s' c after Hg Hg' A Hh Ht Hc Hl Hk Hi' Hi) as (a1 & a2 & j & inv & -> & Hr & P1 & P2 & P3 & P4).
  assert (EX : acts = ((before ++ [ASend s' (Call c)]) ++ a1) ++ a2) by (unfold acts; rewrite <- !app_assoc; reflexivity).
  assert (Hac := receives_accepts Rpc _ s (invocation_for c j i) _ Hg ltac:(rewrite <- EX; exact A) eq_refl Hr). destruct Hac as (b1 & b2 & -> & Hd).
  exists j, (a1 ++ b1), b2. cbn zeta. assert (EB : ((before ++ [ASend s' (Call c)]) ++ a1) ++ b1 = before ++ ASend s' (Call c) :: a1 ++ b1) by (rewrite <- !app_assoc; reflexivity).
  rewrite EB in Hd. split; [rewrite <- app_assoc; reflexivity|]. split; [exact Hd|]. clear Hr.
  intros c1 u c2 Ar Hu Hn Hls Hls' Hir Hir'. set (X := before ++ ASend s' (Call c) :: a1 ++ b1) in *. set (all := X ++ ADeliver s :: c1 ++ ASend s u :: c2) in *.
  assert (EA : all = (X ++ ADeliver s :: c1) ++ ASend s u :: c2) by (unfold all; rewrite <- app_assoc; reflexivity).
  assert (EA' : X ++ ADeliver s :: c1 ++ [ASend s u] = (X ++ ADeliver s :: c1) ++ [ASend s u]) by (rewrite <- app_assoc; reflexivity).
  assert (Lv : forall x, (x = s \/ x = s') -> ~ In (ALeave x) (c1 ++ ASend s u :: c2)).
  { intros x Hx Y. assert (Y' : In (ALeave x) (c1 ++ c2)).
    { apply in_app_or in Y. apply in_or_app. destruct Y as [Y|[Y|Y]]; [left; exact Y|discriminate|right; exact Y]. }
    destruct Hx; subst x; contradiction. }
  assert (Hc1 : connected s' (at_end (X ++ ADeliver s :: c1)) = true).
  { assert (Ap : allowed Rpc (X ++ ADeliver s :: c1)) by (rewrite EA in Ar; exact (allowed_app _ _ _ _ Ar)). unfold X in *. rewrite <- app_assoc in *.
    apply (connected_later Rpc s' before _ Ap Hc). intros Y. cbn [app In] in Y. destruct Y as [Y|Y]; [discriminate|]. apply in_app_or in Y. destruct Y as [Y|[Y|Y]]; [|discriminate|].
    - apply Hl. apply in_app_or in Y. apply in_or_app. destruct Y as [Y|Y]; [left; exact Y|right; apply in_or_app; left; exact Y].
    - apply (Lv s' (or_intror eq_refl)). apply in_or_app. left. exact Y. }
  assert (Hp : pending (at_end (X ++ ADeliver s :: c1)) j inv).
  { assert (EP : X ++ ADeliver s :: c1 = ((before ++ [ASend s' (Call c)]) ++ a1) ++ b1 ++ ADeliver s :: c1) by (unfold X; repeat (rewrite <- app_assoc; cbn [app]); reflexivity).
    rewrite EP. apply pending_later; [rewrite <- EP; rewrite EA in Ar; exact (allowed_app _ _ _ _ Ar)|exact P4|].
    rewrite <- EP, P3. apply (no_reply_incl s j _ _) with (2 := Hn). intros x Y. apply in_app_or in Y. apply in_or_app. destruct Y as [Y|[Y|Y]]; [left; exact Y|right; left; exact Y|].
    right. right. apply in_or_app. left. exact Y. }
  assert (Hinv : invoked (at_end (X ++ ADeliver s :: c1)) s j).
  { replace (X ++ ADeliver s :: c1) with ((X ++ [ADeliver s]) ++ c1) in * by (rewrite <- app_assoc; reflexivity).
    assert (Ap : allowed Rpc ((X ++ [ADeliver s]) ++ c1)) by (rewrite EA in Ar; exact (allowed_app _ _ _ _ Ar)).
    apply (invoked_later Rpc); [exact Ap| | |intros Y; apply (Lv s (or_introl eq_refl)); apply in_or_app; left; exact Y].
    - rewrite at_end_snoc. clear -Hd. revert Hd. fold (at_end X). cbn [nstep]. destruct (zget s (nt_clients (at_end X))) as [[c0 U [|m D]]|]; try discriminate.
      destruct (receive_message c0 m) as [c' r] eqn:E. cbn [fst snd]. intros [= -> ->]. eexists. cbn [nt_clients]. rewrite zget_zset, Z.eqb_refl. split; [reflexivity|].
      cbn [cl_session]. cbn [receive_message invocation_for] in E. destruct (smem _ _); [|discriminate]. injection E as <-.
      cbn [invocation_requests set_invocation_requests iv_request pyint_Z]. unfold sadd. destruct (smem j (invocation_requests c0)) eqn:M; [exact M|].
      unfold smem. rewrite existsb_app. cbn [existsb]. rewrite Z.eqb_refl. apply orb_true_r.
    - apply (no_reply_incl s j _ _) with (2 := Hn). intros x Y. apply in_or_app. right. right. apply in_or_app. left. exact Y. }
  rewrite EA'. rewrite EA in Ar, Hir, Hir'. destruct Hinv as (cl & G & Hm).
  refine (reply_returns (X ++ ADeliver s :: c1) s s' c u c2 j inv Hg' Ar Hp P1 P2 P3 Hc1 _ Hu _ _ _ Hir Hir').
  - exists cl. destruct u; try discriminate; cbn [send_track replies] in *.
    + apply andb_true_iff in Hu. destruct Hu as [Hu _]. change 68 with T_INVOCATION in Hu. rewrite Hu. eexists. split; [exact G|reflexivity].
    + apply Z.eqb_eq in Hu. rewrite Hu, Hm. eexists. split; [exact G|reflexivity].
  - rewrite <- app_assoc. cbn [app]. exact Hn.
  - intros Y. apply (Lv s (or_introl eq_refl)). apply in_or_app. right. right. exact Y.
  - intros Y. apply (Lv s' (or_intror eq_refl)). apply in_or_app. right. right. exact Y.
Qed.

Theorem call_round_trip before s q i s' c after : let acts := before ++ ASend s' (Call c) :: after in
  Gd s -> Gd s' -> allowed Rpc acts -> holding s (Register q) i before -> ca_procedure c = rg_procedure q -> connected s' (at_end before) = true ->
  ~ In (ALeave s') after -> keeps_on s i (Register q) after -> idle s' (at_end acts) -> idle s (at_end acts) ->
  exists j a1 a2, let iv := invocation_for c j i in let X := before ++ ASend s' (Call c) :: a1 in after = a1 ++ ADeliver s :: a2 /\
    snd (nstep (at_end X) (ADeliver s)) = Delivered iv (Ok iv) /\
    forall rest c1 u c2, allowed Rpc (acts ++ rest) -> a2 ++ rest = c1 ++ ASend s u :: c2 -> replies j u = true ->
      no_reply s j (X ++ ADeliver s :: c1 ++ c2) -> ~ In (ALeave s) rest -> ~ In (ALeave s') rest ->
      idle s (at_end (acts ++ rest)) -> idle s' (at_end (acts ++ rest)) ->
      accepts (X ++ ADeliver s :: c1 ++ [ASend s u]) s' (reply_to c u) c2.
Proof.
  intros acts Hg Hg' A Hh Ht Hc Hl Hk Hi' Hi.
  destruct (call_round_trip_then before s q i s' c after Hg Hg' A Hh Ht Hc Hl Hk Hi' Hi) as (j & a1 & a2 & E & V & K).
  exists j, a1, a2. cbn zeta in *. split; [exact E|]. split; [exact V|].
  intros rest c1 u c2 Ar E2 Hu Hn Hls Hls' Hir Hir'.
  assert (EA : acts ++ rest = (before ++ ASend s' (Call c) :: a1) ++ ADeliver s :: c1 ++ ASend s u :: c2).
  { unfold acts. rewrite E. repeat (rewrite <- app_assoc; cbn [app]). rewrite E2. reflexivity. }
  rewrite EA in *.
  assert (Lv : forall x, (x = s \/ x = s') -> ~ In (ALeave x) (c1 ++ c2)).
  { intros x Hx Y. assert (Y' : In (ALeave x) (a2 ++ rest)).
    { rewrite E2. apply in_app_or in Y. apply in_or_app. destruct Y as [Y|Y]; [left; exact Y|right; right; exact Y]. }
    apply in_app_or in Y'. destruct Y' as [Y'|Y']; [|destruct Hx; subst x; contradiction].
    assert (Y2 : In (ALeave x) after) by (rewrite E; apply in_or_app; right; right; exact Y'). destruct Hx; subst x; [exact (proj1 Hk Y2)|exact (Hl Y2)]. }
  apply K; auto.
Qed.

End Disciplined.
