(** * NetworkOrigin: every message a client receives goes back to messages that clients sent. *)
From Coq Require Import String Ascii List ZArith Bool Lia.
From Verif Require Import PyBase Messages IdGen DictFacts SpecHistory Session Joiner.
From Verif Require Import Broker SpecBroker BrokerRun BrokerFacts Dealer SpecDealer DealerRun DealerFacts Network SpecNetwork NetworkFacts NetworkInv.
Import ListNotations.
Local Open Scope string_scope.
Local Open Scope Z_scope.
Local Open Scope list_scope.

Section Origin.
Variable sent : Z -> message -> Prop.

Definition sub_from (b : broker) : Prop := forall l sub s, at_ b l = Some sub -> In s (names sub) ->
  exists q, sent s (Subscribe q) /\ su_topic q = sub_topic sub.
Definition reg_from (d : dealer) : Prop := forall l reg s, dat d l = Some reg -> reg_registrants reg = [(s, s)] ->
  exists q, sent s (Register q) /\ rg_procedure q = reg_procedure reg.
Definition pend_from (d : dealer) : Prop := forall i inv, zget i (d_pending d) = Some inv ->
  exists c q, sent (pi_caller inv) (Call c) /\ ca_request c = pi_request inv /\ sent (pi_callee inv) (Register q) /\ rg_procedure q = ca_procedure c.

Definition broker_from b := Inv1 b /\ sub_from b.
Definition dealer_from d := DInv1 d /\ reg_from d /\ pend_from d.

Definition op_sent (o : bop) : Prop :=
  match o with BMsg s m => sent s m | BPub s m => sent s (Publish m) | _ => True end.
Definition out_from (o : bout) : Prop :=
  match o with
  | ORouted rt => comes_from sent (rt_recipient rt) (rt_message rt)
  | OPub p => (forall rt, pu_ack p = Some rt -> comes_from sent (rt_recipient rt) (rt_message rt)) /\
              (forall e, pu_event p = Some e -> forall s, In s (pu_recipients p) -> comes_from sent s (Event e))
  | _ => True
  end.

Lemma broker_step b o : broker_from b -> op_sent o ->
  broker_from (fst (bstep b o)) /\ out_from (snd (bstep b o)).
Proof.
  intros [J F] So. assert (J' := Inv1_step b o J). assert (H := bstep_outcome b o J). destruct (bstep b o) as [b' r]. cbn [fst snd] in *.
  assert (K : sub_from b' /\ out_from r); [|split; [split; [exact J'|apply K]|apply K]].
  assert (ND : forall l sub, at_ b l = Some sub -> NoDup (names sub)) by (destruct J as (W & _); apply W).
  destruct H; cbn [op_sent out_from] in *; try (split; [exact F|exact Logic.I]).
  - (* leave *) split; [|exact Logic.I]. intros l sub s0 A I0. match goal with H : forall _, at_ _ _ = _ |- _ => rewrite H in A end. destruct (in_dec _ _ _); [|exact (F _ _ _ A I0)].
    destruct (at_ b l) as [sub0|] eqn:E; [|discriminate]. injection A as <-. apply In_names_minus in I0; [|exact (ND _ _ E)].
    exact (F _ _ _ E (proj1 I0)).
  - (* subscribe, new *) split; [|exists m; split; [exact So|reflexivity]].
    intros l sub s0 A I0. unfold at_ in A. cbn [b_heap] in A. rewrite nth_snoc in A. destruct (Nat.eqb _ _); [|exact (F _ _ _ A I0)].
    injection A as <-. destruct I0 as [<-|[]]. exists m. split; [exact So|reflexivity].
  - (* subscribe, old *) split; [|exists m; split; [exact So|reflexivity]].
    intros l0 sub0 s0 A I0. unfold at_ in A, H1. cbn [b_heap] in A. rewrite (nth_put _ _ _ _ _ H1) in A. destruct (Nat.eqb _ _); [|exact (F _ _ _ A I0)].
    injection A as <-. apply In_names_zset in I0. destruct I0 as [->|I0]; [exists m; split; [exact So|symmetry; exact H2]|]. exact (F _ _ _ H1 I0).
  - (* unsubscribe *) split; [|exists m; split; [exact So|reflexivity]].
    intros l0 sub0 s0 A I0. match goal with H : forall _, at_ _ _ = _ |- _ => rewrite H in A end. destruct (Nat.eqb _ _); [|exact (F _ _ _ A I0)].
    injection A as <-. apply In_names_minus in I0; [|exact (ND _ _ H1)]. exact (F _ _ _ H1 (proj1 I0)).
  - (* publish *) split; [exact F|]. cbn [pu_ack pu_event pu_recipients]. split.
    + intros rt. destruct (truthy _) eqn:T; [|discriminate]. intros [= <-]. exists m. split; [exact So|]. split; [reflexivity|].
      unfold wants. unfold sget_default in T. destruct (sget _ _); [exact T|discriminate].
    + intros e. destruct (tget (pb_topic m) (b_by_topic b)) as [l|] eqn:T; [|discriminate].
      destruct J as (W & _). destruct (sh_topic _ W _ _ T) as (sub & A & B & _). rewrite A. intros [= <-] s0 I0.
      destruct (F _ _ _ A I0) as (q & Q & Q'). exists s, m, q. repeat split; [exact So|exact Q|congruence].
Qed.

Definition dop_sent (o : dop) : Prop := match o with DMsg s m => sent s m | _ => True end.
Definition dout_from (o : dout) : Prop := match o with DRouted rt => comes_from sent (rt_recipient rt) (rt_message rt) | _ => True end.

Lemma pend_zset_from d i inv : pend_from d -> 
  (exists c q, sent (pi_caller inv) (Call c) /\ ca_request c = pi_request inv /\ sent (pi_callee inv) (Register q) /\ rg_procedure q = ca_procedure c) ->
  forall j x, zget j (zset i inv (d_pending d)) = Some x ->
  exists c q, sent (pi_caller x) (Call c) /\ ca_request c = pi_request x /\ sent (pi_callee x) (Register q) /\ rg_procedure q = ca_procedure c.
Proof. intros F N j x H. rewrite zget_zset in H. destruct (j =? i); [injection H as <-; exact N|exact (F _ _ H)]. Qed.
Lemma pend_zdel_from d i : DInv1 d -> pend_from d -> forall j x, zget j (zdel i (d_pending d)) = Some x ->
  exists c q, sent (pi_caller x) (Call c) /\ ca_request c = pi_request x /\ sent (pi_callee x) (Register q) /\ rg_procedure q = ca_procedure c.
Proof.
  intros (_ & _ & S) F j x H. rewrite zget_zdel in H by apply S. destruct (j =? i); [discriminate|exact (F _ _ H)].
Qed.

Lemma dealer_step d o : dealer_from d -> dop_sent o ->
  dealer_from (fst (dstep d o)) /\ dout_from (snd (dstep d o)).
Proof.
  intros (J & R & P) So. assert (H := dstep_outcome d o J). assert (J' := DInv1_step _ _ _ _ J H). destruct (dstep d o) as [d' r]. cbn [fst snd] in *.
  assert (K : (reg_from d' /\ pend_from d') /\ dout_from r); [|split; [split; [exact J'|apply K]|apply K]].
  destruct H; cbn [dop_sent dout_from] in *; try (split; [split; [exact R|exact P]|exact Logic.I]).
  - (* leave *) split; [|exact Logic.I]. split.
    + intros l reg s0 A B. match goal with H : forall _, dat _ _ = _ |- _ => rewrite H in A end. destruct (in_dec _ _ _); [|exact (R _ _ _ A B)]. destruct (dat d l); [|discriminate].
      injection A as <-. discriminate B.
    + intros i inv A. match goal with H : d_pending _ = d_pending _ |- _ => rewrite H in A end. exact (P _ _ A).
  - split; [split; [exact R|exact P]|]. right. exists m. split; [exact So|]. left. reflexivity.
  - (* call *) destruct (R _ _ _ H0 H2) as (q & Q & Q'). split.
    + split; [exact R|]. refine (pend_zset_from d _ _ P _). exists m, q. repeat split; [exact So|exact Q|congruence].
    + exists s, m, q. repeat split; [exact So|exact Q|congruence].
  - destruct (R _ _ _ H0 H2) as (q & Q & Q'). split; [split; [exact R|exact P]|]. exists s, m, q. repeat split; [exact So|exact Q|congruence].
  - (* yield *) split; [split; [exact R|exact P]|]. destruct (P _ _ H) as (c & q & A & B & C & D). rewrite H0 in C.
    exists c, s, q, m. repeat split; assumption.
  - destruct (P _ _ H) as (c & q & A & B & C & D). rewrite H0 in C. split; [|exists c, s, q, m; repeat split; assumption].
    split; [exact R|]. exact (pend_zdel_from d _ J P).
  - split; [|exact Logic.I]. split; [exact R|]. exact (pend_zdel_from d _ J P).
  - (* register *) split; [split; [exact R|exact P]|]. left. exists m. split; [exact So|reflexivity].
  - split; [|exists m; split; [exact So|reflexivity]]. split; [|exact P].
    intros l reg s0 A B. unfold dat in A. cbn [d_heap] in A. rewrite nth_snoc in A. destruct (Nat.eqb _ _); [|exact (R _ _ _ A B)].
    injection A as <-. cbn [reg_registrants reg_procedure] in *. injection B as <-. exists m. split; [exact So|reflexivity].
  - (* unregister *) split; [|exists m; split; [exact So|reflexivity]]. split.
    + intros l0 reg0 s0 A B. match goal with H : forall _, dat _ _ = _ |- _ => rewrite H in A end. destruct (Nat.eqb _ _); [|exact (R _ _ _ A B)]. injection A as <-. discriminate B.
    + intros i inv A. match goal with H : d_pending _ = d_pending _ |- _ => rewrite H in A end. exact (P _ _ A).
  - (* error *) destruct (P _ _ H0) as (c & q & A & B & C & D). split.
    + split; [exact R|]. exact (pend_zdel_from d _ J P).
    + right. exists c. split; [exact A|]. right. exists s, m. rewrite B. repeat split; assumption.
Qed.

Lemma route_from b d s m : broker_from b -> dealer_from d -> sent s m ->
  let '(b', d', posts) := route b d s m in
  broker_from b' /\ dealer_from d' /\ Forall (fun rt => comes_from sent (rt_recipient rt) (rt_message rt)) posts.
Proof.
  intros B D Sm.
  assert (HB : broker_from (fst (b_receive_message b s m)) /\
    forall rt, snd (b_receive_message b s m) = Ok rt -> comes_from sent (rt_recipient rt) (rt_message rt)).
  { destruct (broker_step b (BMsg s m) B Sm) as [X Y]. cbn [bstep] in X, Y. destruct (b_receive_message b s m) as [b1 r]. split; [exact X|].
    cbn [snd] in *. intros rt ->. exact Y. }
  assert (HD : dealer_from (fst (d_receive_message d s m)) /\
    forall rt, snd (d_receive_message d s m) = Ok rt -> comes_from sent (rt_recipient rt) (rt_message rt)).
  { destruct (dealer_step d (DMsg s m) D Sm) as [X Y]. cbn [dstep] in X, Y. destruct (d_receive_message d s m) as [d1 r]. split; [exact X|].
    cbn [snd] in *. intros rt ->. exact Y. }
  destruct m; cbn [route]; try (split; [exact B|split; [exact D|constructor]]).
  2:{ (* publish *) destruct (broker_step b (BPub s m) B Sm) as [X Y]. cbn [bstep] in X, Y. destruct (b_receive_publish b s m) as [b1 [p|e]];
        cbn [fst snd out_of] in *; (split; [exact X|split; [exact D|]]); [|constructor].
      destruct Y as [Y1 Y2]. apply Forall_app. split.
      - destruct (pu_ack p) as [q|]; [constructor; [apply Y1; reflexivity|constructor]|constructor].
      - destruct (pu_event p) as [e|]; [|constructor]. specialize (Y2 e eq_refl). apply Forall_forall. intros rt I0. apply in_map_iff in I0.
        destruct I0 as (c & <- & I0). exact (Y2 c I0). }
  all: match goal with
       | |- context [d_receive_message ?d ?s ?x] => destruct HD as [X Y]; destruct (d_receive_message d s x) as [d1 [rt|e]]; cbn [fst snd] in *; (split; [exact B|split; [exact X|]])
       | |- context [b_receive_message ?b ?s ?x] => destruct HB as [X Y]; destruct (b_receive_message b s x) as [b1 [rt|e]]; cbn [fst snd] in *; (split; [exact X|split; [exact D|]])
       end; try (constructor; fail); constructor; [apply Y; reflexivity|constructor].
Qed.
End Origin.

(** [sent] grows. *)
Lemma comes_mono (P Q : Z -> message -> Prop) s m : (forall s m, P s m -> Q s m) -> comes_from P s m -> comes_from Q s m.
Proof.
  intros H. destruct m; cbn [comes_from]; try exact (fun x => x).
  all: try (intros (q & A & B); exists q; split; [apply H, A|exact B]).
  - intros [(q & A & B)|(c & A & B)]; [left; exists q; auto|right; exists c; split; [auto|]].
    destruct B as [B|(s' & e & B & C)]; [left; exact B|right; exists s', e; auto].
  - intros (s' & p & q & A & B & C). exists s', p, q. auto.
  - intros (c & s' & q & y & A & B & C & D & E & F). exists c, s', q, y. repeat split; auto; apply F.
  - intros (s' & c & q & A & B & C). exists s', c, q. auto.
Qed.

Record From (sent : Z -> message -> Prop) (n : net) : Prop := {
  fr_b : broker_from sent (nt_broker n);
  fr_d : dealer_from sent (nt_dealer n);
  fr_up : forall s cl m, zget s (nt_clients n) = Some cl -> In m (cl_up cl) -> sent s m;
  fr_down : forall s cl m, zget s (nt_clients n) = Some cl -> In m (cl_down cl) -> comes_from sent s m;
  fr_nd : NoDup (map fst (nt_clients n)) }.

Lemma From_mono (P Q : Z -> message -> Prop) n : (forall s m, P s m -> Q s m) -> From P n -> From Q n.
Proof.
  intros H [[B1 B2] (D1 & D2 & D3) U D N]. split.
  - split; [exact B1|]. intros l sub s A I0. destruct (B2 _ _ _ A I0) as (q & X & Y). exists q. auto.
  - split; [exact D1|]. split.
    + intros l reg s A I0. destruct (D2 _ _ _ A I0) as (q & X & Y). exists q. auto.
    + intros i inv A. destruct (D3 _ _ A) as (c & q & X & Y & Z & W). exists c, q. auto.
  - intros s cl m A I0. apply H, (U _ _ _ A I0).
  - intros s cl m A I0. apply (comes_mono P); [exact H|]. exact (D _ _ _ A I0).
  - exact N.
Qed.

Lemma From_step sent n a : From sent n -> (forall s m, a = ASend s m \/ a = APut s m -> connected s n = true -> sent s m) -> From sent (fst (nstep n a)).
Proof.
  intros [B D U W N] Sa. destruct n as [cs b d]. cbn [nt_clients nt_broker nt_dealer] in *.
  destruct a as [det|s|s m|s|s|s m]; cbn [nstep nt_clients nt_broker nt_dealer].
  - destruct (broker_step sent b (BJoin det) B Logic.I) as [X _]. destruct (dealer_step sent d (DJoin det) D Logic.I) as [Y _]. cbn [bstep dstep] in X, Y.
    destruct (b_add_session b det) as [b1 rb], (d_add_session d det) as [d1 rd]. cbn [fst] in *.
    destruct rb; [|split; assumption]. destruct rd; [|split; assumption]. split; cbn [fst nt_clients nt_broker nt_dealer]; [exact X|exact Y| | |].
    + intros s cl m A I0. rewrite zget_zset in A. destruct (s =? _); [injection A as <-; destruct I0|exact (U _ _ _ A I0)].
    + intros s cl m A I0. rewrite zget_zset in A. destruct (s =? _); [injection A as <-; destruct I0|exact (W _ _ _ A I0)].
    + apply (NoDup_dset _ Zeqb_ok). exact N.
  - destruct (broker_step sent b (BLeave s) B Logic.I) as [X _]. destruct (dealer_step sent d (DLeave s) D Logic.I) as [Y _]. cbn [bstep dstep] in X, Y.
    destruct (b_remove_session b s) as [b1 rb], (d_remove_session d s) as [d1 rd]. cbn [fst] in *.
    destruct rb; [|split; assumption]. destruct rd; [|split; assumption]. split; cbn [fst nt_clients nt_broker nt_dealer]; [exact X|exact Y| | |].
    + intros s0 cl m A I0. rewrite zget_zdel in A by exact N. destruct (s0 =? _); [discriminate|exact (U _ _ _ A I0)].
    + intros s0 cl m A I0. rewrite zget_zdel in A by exact N. destruct (s0 =? _); [discriminate|exact (W _ _ _ A I0)].
    + apply NoDup_ddel. exact N.
  - destruct (zget s cs) as [[c up down]|] eqn:E; [|split; assumption]. destruct (send_track c m) as [c' r] eqn:T. cbn [cl_session cl_up cl_down]. rewrite T.
    split; cbn [fst nt_clients nt_broker nt_dealer]; [exact B|exact D| | |].
    + intros s0 cl m0 A I0. rewrite zget_zset in A. destruct (Z.eqb_spec s0 s) as [->|]; [|exact (U _ _ _ A I0)]. injection A as <-. cbn [cl_up] in I0.
      destruct r; [|exact (U _ _ _ E I0)]. apply in_app_iff in I0. destruct I0 as [I0|[<-|[]]]; [exact (U _ _ _ E I0)|]. apply Sa; [left; reflexivity|].
      unfold connected, zmem, dmem. cbn [nt_clients]. unfold zget in E. rewrite E. reflexivity.
    + intros s0 cl m0 A I0. rewrite zget_zset in A. destruct (Z.eqb_spec s0 s) as [->|]; [|exact (W _ _ _ A I0)]. injection A as <-. exact (W _ _ _ E I0).
    + apply (NoDup_dset _ Zeqb_ok). exact N.
  - destruct (zget s cs) as [[c [|m up] down]|] eqn:E; try (split; assumption).
    assert (Sm : sent s m) by (apply (U _ _ _ E); left; reflexivity).
    assert (R := route_from sent b d s m B D Sm). destruct (route b d s m) as [[b1 d1] posts]. destruct R as (X & Y & Pp).
    split; cbn [fst nt_clients nt_broker nt_dealer]; [exact X|exact Y| | |].
    + intros s0 cl m0 A I0. rewrite zget_post, zget_zset in A. destruct (Z.eqb_spec s0 s) as [->|].
      * injection A as <-. apply (U _ _ _ E). right. exact I0.
      * destruct (zget s0 cs) as [cl0|] eqn:E0; [|discriminate]. injection A as <-. exact (U _ _ _ E0 I0).
    + intros s0 cl m0 A I0. rewrite zget_post, zget_zset in A.
      assert (M : In m0 (mail posts s0) -> comes_from sent s0 m0).
      { intros I1. apply in_mail in I1. destruct I1 as (rt & I1 & <- & <-). rewrite Forall_forall in Pp. exact (Pp _ I1). }
      destruct (Z.eqb_spec s0 s) as [->|].
      * injection A as <-. cbn [cl_down] in I0. apply in_app_iff in I0. destruct I0 as [I0|I0]; [exact (W _ _ _ E I0)|exact (M I0)].
      * destruct (zget s0 cs) as [cl0|] eqn:E0; [|discriminate]. injection A as <-. cbn [cl_down] in I0. apply in_app_iff in I0.
        destruct I0 as [I0|I0]; [exact (W _ _ _ E0 I0)|exact (M I0)].
    + rewrite keys_post. apply (NoDup_dset _ Zeqb_ok). exact N.
  - destruct (zget s cs) as [[c up [|m down]]|] eqn:E; try (split; assumption). destruct (receive_message c m) as [c' r].
    split; cbn [fst nt_clients nt_broker nt_dealer]; [exact B|exact D| | |].
    + intros s0 cl m0 A I0. rewrite zget_zset in A. destruct (Z.eqb_spec s0 s) as [->|]; [|exact (U _ _ _ A I0)]. injection A as <-. exact (U _ _ _ E I0).
    + intros s0 cl m0 A I0. rewrite zget_zset in A. destruct (Z.eqb_spec s0 s) as [->|]; [|exact (W _ _ _ A I0)]. injection A as <-.
      apply (W _ _ _ E). right. exact I0.
    + apply (NoDup_dset _ Zeqb_ok). exact N.
  - destruct (zget s cs) as [[c up down]|] eqn:E; [|split; assumption]. cbn [cl_session cl_up cl_down].
    split; cbn [fst nt_clients nt_broker nt_dealer]; [exact B|exact D| | |].
    + intros s0 cl m0 A I0. rewrite zget_zset in A. destruct (Z.eqb_spec s0 s) as [->|]; [|exact (U _ _ _ A I0)]. injection A as <-. cbn [cl_up] in I0.
      apply in_app_iff in I0. destruct I0 as [I0|[<-|[]]]; [exact (U _ _ _ E I0)|]. apply Sa; [right; reflexivity|].
      unfold connected, zmem, dmem. cbn [nt_clients]. unfold zget in E. rewrite E. reflexivity.
    + intros s0 cl m0 A I0. rewrite zget_zset in A. destruct (Z.eqb_spec s0 s) as [->|]; [|exact (W _ _ _ A I0)]. injection A as <-. exact (W _ _ _ E I0).
    + apply (NoDup_dset _ Zeqb_ok). exact N.
Qed.

Lemma From_init sent : From sent net_init.
Proof.
  split; cbn; try discriminate; try constructor.
  - repeat split; cbn; try constructor; try discriminate; unfold at_; cbn; intros; destruct l; discriminate.
  - intros l sub s A. unfold at_ in A. destruct l; discriminate.
  - exact DInv1_init.
  - split; [intros l reg s A; unfold dat in A; destruct l; discriminate|intros i inv A; discriminate].
Qed.
Lemma From_run acts : From (sends acts) (fst (nrun acts)).
Proof.
  induction acts as [|a acts IH] using rev_ind; [apply From_init|]. rewrite nrun_snoc. unfold nstep_h.
  assert (K := From_step (sends (acts ++ [a])) (fst (nrun acts)) a).
  destruct (nstep (fst (nrun acts)) a) as [n' o]. cbn [fst] in *. apply K.
  - apply (From_mono (sends acts)); [|exact IH]. intros s m (b & x & f & -> & H). exists b, x, (f ++ [a]). split; [rewrite <- app_assoc; reflexivity|exact H].
  - intros s m Ha H. exists acts, a, []. split; [reflexivity|split; [exact Ha|exact H]].
Qed.

Lemma delivered_from before s m r : snd (nstep (fst (nrun before)) (ADeliver s)) = Delivered m r -> comes_from (sends before) s m.
Proof.
  intros H. destruct (From_run before) as [_ _ _ W _]. cbn [nstep] in H.
  destruct (zget s (nt_clients (fst (nrun before)))) as [[c up [|x down]]|] eqn:E; try discriminate.
  destruct (receive_message c x) as [c' r']. injection H as -> _. apply (W _ _ _ E). left. reflexivity.
Qed.
