(** * NetworkHold: events and invocations come only while the client holds what they are about.  Proofs only. *)
From Coq Require Import List ZArith Bool Lia.
From Verif Require Import PyBase DictFacts Messages IdGen Session SpecSession SessionRun SessionFacts Joiner Broker SpecBroker BrokerRun BrokerFacts.
From Verif Require Import Dealer SpecDealer DealerRun DealerFacts Network SpecNetwork NetworkFacts NetworkInv NetworkRest SpecHold.
Import ListNotations.
Local Open Scope Z_scope.
Local Open Scope list_scope.

Lemma split_snoc {A} (l b c : list A) a x : l ++ [a] = b ++ x :: c -> (c = [] /\ l = b /\ a = x) \/ exists c', c = c' ++ [a] /\ l = b ++ x :: c'.
Proof.
  destruct c as [|y c] using rev_ind; intros E.
  - left. apply app_inj_tail in E. destruct E. auto.
  - right. clear IHc. exists c. rewrite app_comm_cons, app_assoc in E. apply app_inj_tail in E. destruct E as [E1 E2]. subst. auto.
Qed.

Lemma held_snoc hf acts a s i : held hf acts s i -> a <> ALeave s -> (a = ADeliver s -> ~ told_end hf acts s i) -> held hf (acts ++ [a]) s i.
Proof.
  intros (a1 & y & a2 & -> & N & G & L & T) Ha Hd. exists a1, y, (a2 ++ [a]). split; [rewrite <- app_assoc; reflexivity|]. split; [exact N|]. split; [exact G|]. split.
  - intros I0. apply in_app_iff in I0. destruct I0 as [I0|[->|[]]]; [exact (L I0)|]. apply Ha. reflexivity.
  - intros b c E. destruct (split_snoc _ _ _ _ _ E) as [(-> & -> & ->)|(c' & -> & ->)]; [exact (Hd eq_refl)|exact (T b c' eq_refl)].
Qed.

(** What one received message does to the subscriptions and open requests of a session. *)
Lemma receive_members hf c sh m : Inv c sh -> forall c' r, receive_message c m = (c', r) ->
  (forall g, In g (members hf c') -> (gives hf m = Some g /\ r = Ok m) \/ In g (members hf c)) /\
  (forall q, r = Ok m -> eff_of hf m = Del q -> forall g, In g (members hf c') -> zget q (targets hf c) <> Some g) /\
  (forall q, r = Ok m -> eff_of hf m = Del q -> exists g, zget q (targets hf c) = Some g) /\
  (forall q g, zget q (targets hf c') = Some g -> zget q (targets hf c) = Some g) /\
  (r = Ok m -> forall g, about hf m = Some g -> In g (members hf c)).
Proof.
  intros J c' r E.
  assert (ZD : forall q k (d : list (Z * Z)) g, NoDup (map fst d) -> zget q (zdel k d) = Some g -> zget q d = Some g).
  { intros q k d g N. rewrite zget_zdel by exact N. destruct (q =? k); [discriminate|auto]. }
  pose proof (nd_unregister _ _ J) as N1. pose proof (nd_unsubscribe _ _ J) as N2. pose proof (nd_registrations _ _ J) as N3. pose proof (nd_subscriptions _ _ J) as N4.
  destruct m; cbn [receive_message] in E; unfold receive_error in E; cbv zeta in E.
  all: repeat match type of E with (match zget ?a ?b with _ => _ end) = _ => destruct (zget a b) eqn:? end.
  all: repeat match type of E with (if ?b then _ else _) = _ => destruct b eqn:? end.
  all: injection E as <- <-; destruct hf; cbn [members targets gives about eff_of];
    cbn [set_call_requests set_register_requests set_registrations set_invocation_requests set_unregister_requests set_publish_requests set_subscribe_requests set_subscriptions set_unsubscribe_requests subscriptions registrations unsubscribe_requests unregister_requests] in *.
  all: repeat split; intros; try discriminate; auto; try (eapply ZD; eassumption).
  all: try (match goal with H : In _ (sadd _ _) |- _ => apply in_sadd in H; destruct H as [->|H]; auto end).
  all: try (match goal with H : In _ (srem _ _) |- _ => apply in_srem in H; [|assumption]; destruct H; try right; auto end).
  all: try (match goal with H : Del _ = Del _ |- _ => injection H as <- end).
  all: try (match goal with H : Some _ = Some _ |- _ => injection H as <- end).
  all: try (apply smem_In; assumption).
  all: try (eexists; eassumption).
  all: try congruence.
Qed.

(** ** The invariant, for the disciplined sessions *)
Section Disciplined.
Variable Gd : Z -> Prop.
Local Notation NInv := (NInv Gd).
Local Notation allowed := (allowed Gd).

Definition unsent (hf : half) (acts : list action) (s : Z) (c : session) : Prop :=
  forall b u d r i g, acts = b ++ ASend s u :: d -> connected s (fst (nrun b)) = true -> ~ In (ALeave s) d ->
    tgt_req hf u = Some (r, i) -> zget r (targets hf c) = Some g -> g = i.
Definition HInv (hf : half) (acts : list action) (n : net) : Prop := forall s cl, Gd s -> zget s (nt_clients n) = Some cl ->
  (forall i, In i (members hf (cl_session cl)) -> held hf acts s i) /\ unsent hf acts s (cl_session cl).

Lemma unsent_snoc hf acts a s c : unsent hf acts s c -> (forall m, a <> ASend s m) -> unsent hf (acts ++ [a]) s c.
Proof.
  intros U H b u d r i g E C L T G. destruct (split_snoc _ _ _ _ _ E) as [(-> & -> & ->)|(d' & -> & ->)]; [destruct (H u eq_refl)|].
  refine (U b u d' r i g eq_refl C _ T G). intros I0. apply L, in_or_app. left. exact I0.
Qed.
Lemma unsent_same hf acts s c c' : unsent hf acts s c -> (forall q g, zget q (targets hf c') = Some g -> zget q (targets hf c) = Some g) -> unsent hf acts s c'.
Proof. intros U H b u d r i g E C L T G. exact (U b u d r i g E C L T (H _ _ G)). Qed.
Lemma HInv_quiet hf acts a n : HInv hf acts n -> (forall s cl, zget s (nt_clients n) = Some cl -> a <> ALeave s) -> (forall s, a = ADeliver s -> snd (nstep (fst (nrun acts)) a) = Quiet) ->
  (forall s m, a <> ASend s m \/ zget s (nt_clients n) = None) -> HInv hf (acts ++ [a]) n.
Proof.
  intros H Hl Hd Hs s cl Hg G. destruct (H s cl Hg G) as [M U]. split.
  - intros i I0. apply held_snoc; [exact (M i I0)|exact (Hl s cl G)|]. intros -> (x & b & u & c & (r & X) & _). rewrite (Hd s eq_refl) in X. discriminate.
  - apply unsent_snoc; [exact U|]. intros m E. destruct (Hs s m) as [X|X]; congruence.
Qed.

Lemma HInv_run hf acts : allowed hf acts -> HInv hf acts (fst (nrun acts)).
Proof.
  induction acts as [|a acts IH] using rev_ind; intros A; [intros s cl Hg G; discriminate|].
  pose proof (allowed_prefix _ _ _ _ A) as A0. specialize (IH A0). pose proof (NInv_run Gd hf acts A0) as J. rewrite nrun_more.
  set (n := fst (nrun acts)) in *. pose proof (ni_nd _ _ _ _ J) as N.
  destruct a as [det|s0|s0 m0|s0|s0|s0 m0].
  - assert (Q : HInv hf (acts ++ [AJoin det]) n) by (apply HInv_quiet; [exact IH|discriminate|discriminate|left; discriminate]).
    cbn [nstep]. destruct (b_add_session _ det) as [b' rb], (d_add_session _ det) as [d' rd]. destruct rb; [|exact Q]. destruct rd; [|exact Q].
    intros s cl Hg G. cbn [fst nt_clients] in G. rewrite zget_zset in G. destruct (s =? _); [|exact (Q s cl Hg G)]. injection G as <-. cbn [cl_session]. split.
    + intros i I0. destruct hf; destruct I0.
    + intros b u d r i g _ _ _ _ G. destruct hf; discriminate.
  - cbn [nstep]. destruct (ni_b _ _ _ _ J) as (hb & Jb & _). destruct (ni_d _ _ _ _ J) as (hd & Jd & _).
    pose proof (bstep_outcome (nt_broker n) (BLeave s0) (proj1 Jb)) as Ob. pose proof (dstep_outcome (nt_dealer n) (DLeave s0) (proj1 Jd)) as Od.
    cbn [bstep dstep] in Ob, Od. destruct (b_remove_session (nt_broker n) s0) as [b' rb]. destruct (d_remove_session (nt_dealer n) s0) as [d' rd]. cbn [fst snd] in *.
    assert (K : forall n', nt_clients n' = nt_clients n -> zget s0 (nt_clients n) = None -> HInv hf (acts ++ [ALeave s0]) n').
    { intros n' E G0 s cl Hg G. rewrite E in G. apply (HInv_quiet hf acts (ALeave s0) n IH); [|discriminate|left; discriminate|exact Hg|exact G]. intros s1 cl1 G1 E1. congruence. }
    pose proof (ni_sync_b _ _ _ _ J s0) as Sb. pose proof (ni_sync_d _ _ _ _ J s0) as Sd. rewrite !zmem_zget in Sb, Sd.
    destruct rb as [ub|eb]; cbn [out_of] in Ob; inversion Ob; subst.
    2:{ apply K; [destruct rd; reflexivity|]. destruct (zget s0 (nt_clients n)); [|reflexivity]. match goal with X : zget s0 (b_by_session _) = None |- _ => rewrite X in Sb end. discriminate. }
    destruct rd as [ud|ed]; cbn [d_out_of] in Od; inversion Od; subst.
    2:{ apply K; [reflexivity|]. destruct (zget s0 (nt_clients n)); [|reflexivity]. match goal with X : zget s0 (d_by_session _) = None |- _ => rewrite X in Sd end. discriminate. }
    intros s cl Hg G. cbn [fst nt_clients] in G. rewrite zget_zdel in G by exact N. destruct (Z.eqb_spec s s0) as [->|Hne]; [discriminate|].
    destruct (IH s cl Hg G) as [M U]. split; [|apply unsent_snoc; [exact U|discriminate]]. intros i I0. apply held_snoc; [exact (M i I0)|congruence|discriminate].
  - cbn [nstep]. destruct (zget s0 (nt_clients n)) as [cl0|] eqn:G0.
    2:{ cbn [fst]. intros s cl Hg G. destruct (IH s cl Hg G) as [M U]. split; [intros i I0; apply held_snoc; [exact (M i I0)|discriminate|discriminate]|].
        apply unsent_snoc; [exact U|]. intros m E. injection E as -> _. congruence. }
    destruct (send_track (cl_session cl0) m0) as [c' r] eqn:E. cbn [fst]. intros s cl Hg G. cbn [nt_clients] in G. rewrite zget_zset in G.
    destruct (Z.eqb_spec s s0) as [->|Hne].
    2:{ destruct (IH s cl Hg G) as [M U]. split; [intros i I0; apply held_snoc; [exact (M i I0)|discriminate|discriminate]|].
        apply unsent_snoc; [exact U|]. intros m E1. injection E1 as E1 _. congruence. }
    injection G as <-. cbn [cl_session]. destruct (IH s0 cl0 Hg G0) as [M U].
    assert (Mc : members hf c' = members hf (cl_session cl0)).
    { destruct r as [[]|e]; [apply (send_fields _ _ _ E)|]. apply send_raises in E. subst. reflexivity. }
    split; [rewrite Mc; intros i I0; apply held_snoc; [exact (M i I0)|discriminate|discriminate]|].
    intros b u d q i g Ea C L T G. destruct r as [[]|e].
    + destruct (send_fields _ _ _ E) as (_ & _ & F). rewrite F in G. destruct (split_snoc _ _ _ _ _ Ea) as [(-> & -> & Eu)|(d' & -> & Eb)].
      * injection Eu as ->. rewrite T, Z.eqb_refl in G. congruence.
      * assert (L' : ~ In (ALeave s0) d') by (intros I0; apply L, in_or_app; left; exact I0).
        destruct (tgt_req hf m0) as [[q0 g0]|] eqn:T0; [|exact (U b u d' q i g Eb C L' T G)].
        destruct (Z.eqb_spec q q0) as [->|]; [|exact (U b u d' q i g Eb C L' T G)]. exfalso. apply L'.
        destruct (tgt_req_asks _ _ _ _ T) as (k1 & H1 & H2). destruct (tgt_req_asks _ _ _ _ T0) as (k2 & H3 & H4).
        apply up_req_asks in H2, H4. destruct A as (_ & A). destruct (A s0 Hg) as [[_ A1] _].
        assert (k1 = k2) as ->.
        { clear - T T0 H2 H4. destruct hf; destruct u; try discriminate T; destruct m0; try discriminate T0; cbn in H2, H4; congruence. }
        apply (A1 b u d' m0 [] k2 q0); [rewrite Eb, <- app_assoc; reflexivity|exact H3|exact H2|exact H4].
    + pose proof E as E'. apply send_raises in E. subst c'. destruct (split_snoc _ _ _ _ _ Ea) as [(-> & -> & Eu)|(d' & -> & Eb)].
      * injection Eu as ->. exfalso. clear - T E'. destruct hf; destruct u; try discriminate T; cbn in E'; discriminate.
      * refine (U b u d' q i g Eb C _ T G). intros I0; apply L, in_or_app; left; exact I0.
  - assert (Q : HInv hf (acts ++ [ARoute s0]) n) by (apply HInv_quiet; [exact IH|discriminate|discriminate|left; discriminate]).
    cbn [nstep]. destruct (zget s0 (nt_clients n)) as [[c [|u0 U0] D]|] eqn:G0; try exact Q. destruct (route _ _ s0 u0) as [[b' d'] posts].
    intros s cl Hg G. cbn [fst nt_clients] in G. rewrite zget_post, zget_zset in G. destruct (Z.eqb_spec s s0) as [->|].
    + injection G as <-. cbn [cl_session]. exact (Q s0 _ Hg G0).
    + destruct (zget s (nt_clients n)) as [cl1|] eqn:G1; [|discriminate]. injection G as <-. cbn [cl_session]. exact (Q s _ Hg G1).
  - destruct (step_deliver Gd hf acts n s0 J) as [_ Acc].
    destruct (zget s0 (nt_clients n)) as [[c U0 [|u0 D]]|] eqn:G0.
    1,3: assert (E0 : nstep n (ADeliver s0) = (n, Quiet)) by (cbn [nstep]; rewrite G0; reflexivity); rewrite E0; cbn [fst];
         apply HInv_quiet; [exact IH|discriminate|intros s E; injection E as <-; fold n; rewrite E0; reflexivity|left; discriminate].
    cbn [nstep] in Acc |- *. rewrite G0 in Acc |- *. destruct (receive_message c u0) as [c' r] eqn:E. cbn [fst snd] in Acc |- *.
    intros s cl Hg G. cbn [nt_clients] in G. rewrite zget_zset in G. destruct (Z.eqb_spec s s0) as [->|Hne].
    2:{ destruct (IH s cl Hg G) as [M U]. split; [|apply unsent_snoc; [exact U|discriminate]]. intros i I0. apply held_snoc; [exact (M i I0)|discriminate|]. intros X. injection X as X. congruence. }
    injection G as <-. cbn [cl_session]. destruct (IH s0 _ Hg G0) as [M U]. cbn [cl_session] in M, U.
    destruct (ci_sess _ _ _ _ _ _ _ (ni_cl _ _ _ _ J s0 _ Hg G0)) as (sh & Js). cbn [cl_session] in Js.
    destruct (receive_members hf c sh u0 Js c' r E) as (R1 & R2 & R3 & R4 & _).
    split; [|apply (unsent_same _ _ _ c); [|exact R4]; apply unsent_snoc; [exact U|discriminate]].
    assert (NX : next_is acts s0 u0) by (exists r; cbn [nstep]; fold n; rewrite G0, E; reflexivity).
    intros i I0. destruct (R1 i I0) as [[Gv _]|I1].
    { exists acts, u0, []. split; [reflexivity|]. split; [exact NX|]. split; [exact Gv|]. split; [tauto|]. intros [|? b] d X; discriminate. }
    apply held_snoc; [exact (M i I1)|discriminate|]. intros _ (x & b & u & d & (r' & X) & Hx & Eb & C & L & Cf).
    destruct NX as (r'' & NX). rewrite NX in X. injection X as <- <-. cbn [nstep] in NX. fold n in NX. rewrite G0, E in NX. cbn [snd] in NX. injection NX as <-.
    specialize (Acc u0 r Hg eq_refl Hx).
    assert (T : exists q, tgt_req hf u = Some (q, i) /\ eff_of hf u0 = Del q).
    { clear - Cf Hx. destruct u; try discriminate Cf; destruct u0; try discriminate Cf; cbn [confirms_end] in Cf; cbn [message_half] in Hx; injection Hx as <-;
        apply andb_true_iff in Cf; destruct Cf as [C1 C2]; apply Z.eqb_eq in C1, C2; eexists; cbn [tgt_req eff_of]; rewrite C1, C2; auto. }
    destruct T as (q & T1 & T2). destruct (R3 q Acc T2) as (g & Gq). apply (R2 q Acc T2 i I0). rewrite Gq. f_equal.
    exact (U b u d q i g Eb C L T1 Gq).
  - assert (Q : HInv hf (acts ++ [APut s0 m0]) n) by (apply HInv_quiet; [exact IH|discriminate|discriminate|left; discriminate]).
    cbn [nstep]. destruct (zget s0 (nt_clients n)) as [cl0|] eqn:G0; [|exact Q]. intros s cl Hg G. cbn [fst nt_clients] in G. rewrite zget_zset in G.
    destruct (Z.eqb_spec s s0) as [->|]; [destruct (put_foreign _ _ _ _ _ A Hg)|exact (Q s cl Hg G)].
Qed.

Theorem only_while_held hf acts s x i : Gd s -> allowed hf acts -> next_is acts s x -> about hf x = Some i -> held hf acts s i.
Proof.
  intros Hg A (r & X) Ab. pose proof (NInv_run Gd hf acts A) as J. pose proof (HInv_run hf acts A) as H. destruct (step_deliver Gd hf acts _ s J) as [_ Acc].
  cbn [nstep] in X, Acc. destruct (zget s (nt_clients (fst (nrun acts)))) as [[c U [|u D]]|] eqn:G; try discriminate. destruct (receive_message c u) as [c' r'] eqn:E. cbn [snd] in X, Acc.
  injection X as -> ->. destruct (ci_sess _ _ _ _ _ _ _ (ni_cl _ _ _ _ J s _ Hg G)) as (sh & Js). cbn [cl_session] in Js.
  destruct (receive_members hf c sh x Js c' r E) as (_ & _ & _ & _ & R5). destruct (H s _ Hg G) as [M _]. apply M. cbn [cl_session]. apply R5; [|exact Ab].
  apply Acc; [exact Hg|reflexivity|]. destruct hf; destruct x; try discriminate Ab; reflexivity.
Qed.
End Disciplined.
