(** * HostileFlow: what the theorems on object networks say about clients in a network with hostile ones. *)
From Coq Require Import String Ascii List ZArith Bool Lia.
From Verif Require Import PyBase Encoding Messages Validate Parse IdGen Serializer Codecs Session Joiner Broker Dealer SpecDealer Network SpecNetwork NetworkFacts NetworkInv NetworkLive NetworkFlow NetworkDelivery.
From Verif Require Import DictFacts BrokerFacts DealerFacts SpecSchema RoundTripFacts SpecCodec CodecFacts CodecsFacts HandshakeFacts HandshakeCodec ByteNetwork SpecByteNetwork ByteNetworkFacts ByteFlowFacts.
From Verif Require Import HeaderFacts HostileNetwork SpecHostile HostileFacts HostileSim.
Import ListNotations.
Local Open Scope string_scope.
Local Open Scope Z_scope.
Local Open Scope list_scope.

Lemma split_app {A} (l r P Q : list A) x : l ++ r = P ++ x :: Q ->
  (exists l2, l = P ++ x :: l2 /\ Q = l2 ++ r) \/ (exists P2, P = l ++ P2 /\ r = P2 ++ x :: Q).
Proof.
  revert P. induction l as [|y l IH]; intros P E; [right; exists P; auto|]. destruct P as [|z P]; cbn in E.
  - injection E as -> <-. left. exists l. auto.
  - injection E as <- E. destruct (IH _ E) as [(l2 & -> & ->)|(P2 & -> & E2)]; [left; exists l2; auto|right; exists P2; auto].
Qed.
Lemma trace_pos l a out : In (a, out) (snd (nrun l)) -> exists A B, l = A ++ a :: B /\ snd (nstep (at_end A) a) = out.
Proof.
  induction l as [|x l IH] using rev_ind; [intros []|]. rewrite nrun_snoc. unfold nstep_h. destruct (nstep (fst (nrun l)) x) as [n o] eqn:E. cbn [snd].
  intros [[= -> ->]|H].
  - exists l, []. split; [reflexivity|]. unfold at_end. rewrite E. reflexivity.
  - destruct (IH H) as (A & B & -> & S). exists A, (B ++ [x]). split; [rewrite <- app_assoc; reflexivity|exact S].
Qed.
Lemma h_trace_pos l a out : In (a, out) (snd (hrun l)) -> exists A B, l = A ++ a :: B /\ snd (hstep (fst (hrun A)) a) = out.
Proof.
  induction l as [|x l IH] using rev_ind; [intros []|]. rewrite hrun_snoc. unfold hstep_h. destruct (hstep (fst (hrun l)) x) as [n o] eqn:E. cbn [snd].
  intros [[= -> ->]|H].
  - exists l, []. split; [reflexivity|]. rewrite E. reflexivity.
  - destruct (IH H) as (A & B & -> & S). exists A, (B ++ [x]). split; [rewrite <- app_assoc; reflexivity|exact S].
Qed.
Lemma h_in_trace pre a post : In (a, snd (hstep (fst (hrun pre)) a)) (snd (hrun (pre ++ a :: post))).
Proof.
  induction post as [|x post IH] using rev_ind.
  - rewrite hrun_snoc. unfold hstep_h. destruct (hstep _ a). left. reflexivity.
  - change (pre ++ a :: post ++ [x]) with (pre ++ (a :: post) ++ [x]). rewrite app_assoc, hrun_snoc. unfold hstep_h.
    destruct (hstep _ x). right. exact IH.
Qed.

Section Lowering.
Context (gd : Z -> bool).
Local Notation low1 := (low1 gd).
Local Notation low := (low gd).
Local Notation lower := (lower gd).
Local Notation hsim := (hsim gd).
Local Notation fitting := (fitting gd).

(** ** Which action a lowered action comes from *)
Lemma in_low x : forall acts n o, In x (low n o acts) -> exists b a f, acts = b ++ a :: f /\ In x (low1 (hsteps n b) (steps o (low n o b)) a).
Proof.
  induction acts as [|a acts IH]; intros n o H; [destruct H|]. cbn [HostileSim.low] in H. apply in_app_or in H. destruct H as [H|H].
  - exists [], a, acts. split; [reflexivity|exact H].
  - destruct (IH _ _ H) as (b & a' & f & -> & H'). exists (a :: b), a', f. split; [reflexivity|]. cbn [HostileSim.low hsteps fold_left]. rewrite steps_app. exact H'.
Qed.
Lemma flush_deliver s c ms x : In x (flush s c ms) -> x = ADeliver s.
Proof. induction ms as [|m ms IH]; cbn; [tauto|]. intros [<-|H]; [reflexivity|]. destruct (serialize c m); [destruct H|auto]. Qed.
Lemma puts_put s c b x : In x (puts s c b) -> exists m, x = APut s m /\ deserialize c b = Ok m.
Proof. unfold puts. destruct (deserialize c b) as [m|]; [|intros []]. intros [<-|[]]. eauto. Qed.
Definition source (x : action) (n : bnet) (o : net) (a : haction) : Prop :=
  match x with
  | AJoin d => exists c, a = HAct (WJoin d c)
  | ALeave s => a = HAct (WLeave s)
  | ASend s m => exists m0 cl b, a = HAct (WSend s m0) /\ m = normalise m0 /\ gd s = true /\ low1 n o a = [x] /\
      zget s (bn_clients n) = Some cl /\ snd (send_message (bc_codec cl) (bc_session cl) m0) = Ok b
  | ARoute s => a = HAct (WRoute s)
  | ADeliver s => a = HAct (WDeliver s) /\ gd s = true
  | APut s m => exists cl b, zget s (bn_clients n) = Some cl /\ deserialize (bc_codec cl) b = Ok m /\
      (a = HPut s b \/ gd s = false /\ exists m0, a = HAct (WSend s m0) /\ snd (send_message (bc_codec cl) (bc_session cl) m0) = Ok b)
  end.
Lemma in_low1 x n o a : In x (low1 n o a) -> source x n o a.
Proof.
  destruct a as [[det c|s|s m|s|s]|s b]; cbn [HostileSim.low1].
  - intros [<-|[]]. exists c. reflexivity.
  - intros [<-|[]]. reflexivity.
  - destruct (zget s (bn_clients n)) as [cl|] eqn:G; [|intros []]. destruct (snd (send_message _ _ m)) as [b|] eqn:E; [|intros []].
    destruct (gd s) eqn:Gs.
    + intros [<-|[]]. exists m, cl, b. repeat split; auto. cbn [HostileSim.low1]. rewrite G, E, Gs. reflexivity.
    + intros H. apply puts_put in H. destruct H as (m' & -> & D). exists cl, b. split; [exact G|]. split; [exact D|]. right. eauto.
  - destruct (zget s (bn_clients n)) as [[c se [|b up] down]|]; try (intros []). destruct (deserialize c b); [|intros []]. intros [<-|[]]. reflexivity.
  - destruct (gd s) eqn:Gs; [|intros []]. destruct (zget s (bn_clients n)) as [[c se up [|b down]]|]; destruct (zget s (nt_clients o)) as [cl|]; try (intros []; fail).
    intros H. apply flush_deliver in H. subst x. split; [reflexivity|exact Gs].
  - destruct (zget s (bn_clients n)) as [cl|] eqn:G; [|intros []]. intros H. apply puts_put in H. destruct H as (m' & -> & D). exists cl, b. auto.
Qed.
Lemma in_lower x acts : In x (lower acts) -> exists b a f, acts = b ++ a :: f /\ source x (fst (hrun b)) (at_end (lower b)) a.
Proof. intros H. apply in_low in H. destruct H as (b & a & f & E & H). exists b, a, f. split; [exact E|]. apply in_low1. rewrite <- hsteps_run, <- steps_run. exact H. Qed.
Lemma low_leave s : forall acts n o, In (HAct (WLeave s)) acts -> In (ALeave s) (low n o acts).
Proof.
  induction acts as [|a acts IH]; intros n o H; [destruct H|]. cbn [HostileSim.low]. apply in_or_app. destruct H as [->|H]; [left; left; reflexivity|right; apply IH, H].
Qed.
Lemma no_leave s acts n o : ~ In (HAct (WLeave s)) acts -> ~ In (ALeave s) (low n o acts).
Proof. intros H K. apply in_low in K. destruct K as (b & a & f & -> & K). apply in_low1 in K. cbn in K. subst a. apply H, in_elt. Qed.
Lemma low_send s m : forall acts n o A B, low n o acts = A ++ ASend s m :: B ->
  exists b1 m0 b2, acts = b1 ++ HAct (WSend s m0) :: b2 /\ m = normalise m0 /\ A = low n o b1 /\
    low1 (hsteps n b1) (steps o (low n o b1)) (HAct (WSend s m0)) = [ASend s m] /\
    B = low (hsteps n (b1 ++ [HAct (WSend s m0)])) (steps o (low n o (b1 ++ [HAct (WSend s m0)]))) b2.
Proof.
  induction acts as [|a acts IH]; intros n o A B E; [destruct A; discriminate|]. cbn [HostileSim.low] in E. apply split_app in E. destruct E as [(l2 & E & ->)|(P2 & -> & E)].
  - assert (H : In (ASend s m) (low1 n o a)) by (rewrite E; apply in_elt). apply in_low1 in H. destruct H as (m0 & cl & b & -> & -> & Gs & El & _).
    rewrite El in E. destruct A as [|y A]; [|destruct A; discriminate]. injection E as <-. exists [], m0, acts. repeat split; auto.
    cbn [app HostileSim.low hsteps fold_left]. rewrite app_nil_r. reflexivity.
  - destruct (IH _ _ _ _ E) as (b1 & m0 & b2 & -> & -> & -> & El & ->). exists (a :: b1), m0, b2. cbn [app HostileSim.low hsteps fold_left]. rewrite !steps_app. repeat split; auto.
Qed.

(** ** Deliveries *)
Definition lost (o : net) (s : Z) : Prop := exists m r, snd (nstep o (ADeliver s)) = Delivered m r /\ fit m /\ ~ good m.
Lemma low_deliver s : forall acts n o A B m r0, hsim n o -> Forall fitting acts -> low n o acts = A ++ ADeliver s :: B ->
  snd (nstep (steps o A) (ADeliver s)) = Delivered m r0 ->
  (fit m /\ ~ good m) \/
  exists b1 b2 d r k, acts = b1 ++ HAct (WDeliver s) :: b2 /\ snd (hstep (hsteps n b1) (HAct (WDeliver s))) = WDelivered d r /\ matches m d r r0 /\
    A = low n o b1 ++ repeat (ADeliver s) k /\
    low1 (hsteps n b1) (steps o (low n o b1)) (HAct (WDeliver s)) = repeat (ADeliver s) k ++ [ADeliver s] /\
    B = low (hsteps n (b1 ++ [HAct (WDeliver s)])) (steps o (low n o (b1 ++ [HAct (WDeliver s)]))) b2.
Proof.
  induction acts as [|a acts IH]; intros n o A B m r0 S F E H; [destruct A; discriminate|]. inversion F as [|? ? Fa F']; subst.
  cbn [HostileSim.low] in E. apply split_app in E. destruct E as [(l2 & E & ->)|(P2 & -> & E)].
  - assert (K : In (ADeliver s) (low1 n o a)) by (rewrite E; apply in_elt). apply in_low1 in K. destruct K as [-> Gs].
    destruct (snd (hstep n (HAct (WDeliver s)))) as [d r|] eqn:Eh.
    2:{ exfalso. revert E Eh. cbn [HostileSim.low1 hstep bytes_step]. rewrite Gs. destruct (zget s (bn_clients n)) as [[c se up [|b down]]|]; [|destruct (receive c se b); discriminate|destruct A; discriminate].
        destruct (zget s (nt_clients o)); destruct A; discriminate. }
    destruct (deliver_sim gd n o s d r S Gs Eh) as (k & m' & r' & El & Ed & M & Lost & _). rewrite El in E.
    assert (R : repeat (ADeliver s) k ++ [ADeliver s] = repeat (ADeliver s) (k + 1)) by (rewrite repeat_app; reflexivity).
    assert (E' := E). rewrite R in E'. destruct (repeat_split _ _ _ _ _ E') as (_ & i & j & -> & -> & Hk).
    destruct (Nat.eq_dec i k) as [->|Ni].
    + rewrite Ed in H. injection H as <- <-. right. exists [], acts, d, r, k. assert (j = 0%nat) by lia. subst j. repeat split; auto; try apply M.
      cbn [app HostileSim.low hsteps fold_left repeat]. rewrite app_nil_r. reflexivity.
    + left. destruct (Lost i ltac:(lia)) as (m1 & r1 & D & X). rewrite D in H. injection H as <- <-. exact X.
  - rewrite steps_app in H. destruct (IH _ _ _ _ _ _ (hsim_step gd n o a S Fa) F' E H) as [L|(b1 & b2 & d & r & k & -> & Eh & M & -> & El & ->)]; [left; exact L|right].
    exists (a :: b1), b2, d, r, k. cbn [app HostileSim.low hsteps fold_left]. rewrite !steps_app, <- app_assoc. repeat split; auto; apply M.
Qed.
Lemma wf_hsim_run acts : Forall fitting acts -> hsim (fst (hrun acts)) (at_end (lower acts)).
Proof. apply hsim_run. Qed.

(** ** What is left on the links of an idle client *)
Definition lostly (o : net) (D : list action) : Prop := forall A x B, D = A ++ x :: B -> exists s, x = ADeliver s /\ lost (steps o A) s.
Lemma lostly_nil o : lostly o [].
Proof. intros A x B E. destruct A; discriminate. Qed.
Lemma lostly_cons o s D : lost o s -> lostly (fst (nstep o (ADeliver s))) D -> lostly o (ADeliver s :: D).
Proof.
  intros L H A x B E. destruct A as [|y A]; cbn in E; [injection E as <- <-; exists s; auto|]. injection E as <- E. exact (H _ _ _ E).
Qed.
Lemma lostly_app o D E : lostly o D -> lostly (steps o D) E -> lostly o (D ++ E).
Proof.
  intros H K A x B Eq. apply split_app in Eq. destruct Eq as [(l2 & -> & _)|(P2 & -> & Eq)]; [exact (H _ _ _ eq_refl)|]. rewrite steps_app. exact (K _ _ _ Eq).
Qed.
Lemma drain_one n s : gd s = true -> forall down o c0 c se, hsim n o -> zget s (nt_clients o) = Some (mkClient c0 [] down) ->
  zget s (bn_clients n) = Some (mkBClient c se [] []) ->
  exists D, hsim n (steps o D) /\ idle s (steps o D) /\ (forall x, idle x o -> idle x (steps o D)) /\ lostly o D /\ nt_dealer (steps o D) = nt_dealer o.
Proof.
  intros Gs. induction down as [|m down IH]; intros o c0 c se S Go Gn.
  - exists []. split; [exact S|]. split; [exists c0; exact Go|]. split; [auto|]. split; [apply lostly_nil|reflexivity].
  - assert (S' := S). destruct S' as (L & Eb & Ed & Bo & Do). assert (G := halike_get gd s _ _ L). rewrite Gn, Go in G. unfold hlike in G. rewrite Gs in G.
    destruct G as (C & Ss & Lu & D & F). cbn [bc_codec bc_session bc_up bc_down cl_session cl_up cl_down] in *. inversion F as [|? ? Fm F']; subst.
    unfold encoded in D. cbn [flat_map] in D. destruct (serialize c m) as [b|e] eqn:Es; [discriminate|]. cbn [app] in D.
    assert (Ng := unencodable _ _ _ C Es). assert (Hm : headed m) by (destruct Fm; [contradiction|assumption]).
    set (c1 := fst (receive_message c0 m)). set (o1 := mkNet (zset s (mkClient c1 [] down) (nt_clients o)) (nt_broker o) (nt_dealer o)).
    assert (St : nstep o (ADeliver s) = (o1, Delivered m (snd (receive_message c0 m)))).
    { cbn [nstep]. rewrite Go. unfold o1, c1. destruct (receive_message c0 m). reflexivity. }
    destruct (IH o1 c1 c se) as (D1 & H1 & H2 & H3 & H4 & H5).
    + split; [|split; [exact Eb|split; [exact Ed|split; assumption]]]. cbn [o1 nt_clients]. rewrite <- (zset_same _ _ _ Gn). apply halike_set; [exact L|].
      unfold hlike. rewrite Gs. cbn [bc_codec bc_session bc_up bc_down cl_session cl_up cl_down]. repeat split; auto. apply lost_sim; assumption.
    + cbn [o1 nt_clients]. rewrite zget_zset, Z.eqb_refl. reflexivity.
    + exact Gn.
    + exists (ADeliver s :: D1). cbn [steps fold_left]. rewrite St. cbn [fst]. split; [exact H1|]. split; [exact H2|]. split; [|split; [|exact H5]].
      * intros x (cx & Gx). apply H3. exists cx. cbn [o1 nt_clients]. rewrite zget_zset. destruct (Z.eqb_spec x s) as [->|]; [congruence|exact Gx].
      * apply lostly_cons; [eexists _, _; rewrite St; split; [reflexivity|split; assumption]|rewrite St; exact H4].
Qed.
Lemma drain_all n : forall ss o, hsim n o -> (forall s, In s ss -> gd s = true /\ bytes_idle s n) ->
  exists D, (forall s, In s ss -> idle s (steps o D)) /\ lostly o D /\ nt_dealer (steps o D) = nt_dealer o /\ (forall x, idle x o -> idle x (steps o D)).
Proof.
  induction ss as [|s ss IH]; intros o S H.
  - exists []. split; [intros s []|]. split; [apply lostly_nil|]. split; [reflexivity|auto].
  - destruct (H s (or_introl eq_refl)) as [Gs (c & se & Gn)]. assert (G := halike_get gd s _ _ (proj1 S)). rewrite Gn in G. destruct (zget s (nt_clients o)) as [[c0 cu cd]|] eqn:Go; [|contradiction].
    unfold hlike in G. rewrite Gs in G. destruct G as (_ & _ & Lu & _). cbn in Lu. inversion Lu; subst.
    destruct (drain_one n s Gs cd o c0 c se S Go Gn) as (D & S1 & I1 & K1 & L1 & E1).
    destruct (IH (steps o D) S1) as (D2 & I2 & L2 & E2 & K2); [intros s0 H0; apply H; right; exact H0|].
    exists (D ++ D2). rewrite steps_app. split; [intros s0 [<-|H0]; [apply K2, I1|apply I2, H0]|]. split; [apply lostly_app; assumption|].
    split; [congruence|]. intros x Hx. apply K2, K1, Hx.
Qed.
Lemma lostly_in o D x : lostly o D -> In x D -> exists s, x = ADeliver s.
Proof. intros L H. apply in_split in H. destruct H as (A & B & E). destruct (L _ _ _ E) as (s & -> & _). eauto. Qed.

(** ** The rules carry over *)
Lemma routings_app a b : routings (a ++ b) = routings a + routings b.
Proof. unfold routings. rewrite filter_app, app_length, Nat2Z.inj_add. reflexivity. Qed.
Lemma flush_routings s c ms : routings (flush s c ms) = 0.
Proof. induction ms as [|m ms IH]; [reflexivity|]. cbn [flush]. change (routings (ADeliver s :: ?l)) with (routings l). destruct (serialize c m); [reflexivity|exact IH]. Qed.
Lemma lostly_routings o D : lostly o D -> routings D = 0.
Proof.
  revert o. induction D as [|x D IH]; intros o L; [reflexivity|]. destruct (L [] x D eq_refl) as (s & -> & _). change (routings (ADeliver s :: D)) with (routings D).
  apply (IH (fst (nstep o (ADeliver s)))). intros A y B ->. exact (L (ADeliver s :: A) y B eq_refl).
Qed.
Lemma low_routings : forall acts n o, routings (low n o acts) <= h_routings acts.
Proof.
  induction acts as [|a acts IH]; intros n o; [discriminate|]. cbn [HostileSim.low]. rewrite routings_app. specialize (IH (fst (hstep n a)) (steps o (low1 n o a))).
  assert (E : h_routings (a :: acts) = h_routings [a] + h_routings acts).
  { unfold h_routings. change (a :: acts) with ([a] ++ acts). rewrite filter_app, app_length, Nat2Z.inj_add. reflexivity. }
  rewrite E. enough (routings (low1 n o a) <= h_routings [a]) by lia. clear.
  destruct a as [[det c|s|s m|s|s]|s b]; cbn [HostileSim.low1].
  - discriminate.
  - discriminate.
  - destruct (zget s (bn_clients n)) as [cl|]; [|discriminate]. destruct (snd _); [|discriminate]. destruct (gd s); [discriminate|]. unfold puts. destruct (deserialize _ _); discriminate.
  - destruct (zget s (bn_clients n)) as [[c se [|b up] down]|]; try discriminate. destruct (deserialize c b); discriminate.
  - destruct (gd s); [|discriminate]. destruct (zget s (bn_clients n)) as [[c se up [|b down]]|]; destruct (zget s (nt_clients o)); try discriminate. rewrite flush_routings. discriminate.
  - destruct (zget s (bn_clients n)) as [cl|]; [|discriminate]. unfold puts. destruct (deserialize _ _); discriminate.
Qed.
Lemma joined_app a b : joined (a ++ b) = joined a ++ joined b.
Proof. apply flat_map_app. Qed.
Lemma joined_none l : (forall x, In x l -> forall d, x <> AJoin d) -> joined l = [].
Proof.
  induction l as [|x l IH]; intros H; [reflexivity|]. change (x :: l) with ([x] ++ l). rewrite joined_app, IH by (intros y Y; apply H; right; exact Y).
  destruct x; try reflexivity. destruct (H (AJoin d) (or_introl eq_refl) d eq_refl).
Qed.
Lemma low_joined : forall acts n o, joined (low n o acts) = h_joined acts.
Proof.
  induction acts as [|a acts IH]; intros n o; [reflexivity|]. cbn [HostileSim.low]. rewrite joined_app, IH. unfold h_joined at 2. cbn [flat_map]. f_equal.
  destruct (match a with HAct (WJoin d _) => Some d | _ => None end) as [d|] eqn:E.
  - destruct a as [[]|]; try discriminate. injection E as ->. reflexivity.
  - assert (N : joined (low1 n o a) = []).
    { apply joined_none. intros x Hx d ->. apply in_low1 in Hx. destruct Hx as (c & ->). discriminate. }
    rewrite N. destruct a as [[]|]; try reflexivity. discriminate.
Qed.

Lemma no_puts s acts D o m : Forall fitting acts -> gd s = true -> lostly o D -> ~ In (APut s m) (lower acts ++ D).
Proof.
  intros F Gs L H. apply in_app_or in H. destruct H as [H|H]; [|destruct (lostly_in _ _ _ L H); discriminate].
  apply in_lower in H. destruct H as (b & a & f & -> & cl & w & _ & _ & [->|(E & _)]); [|congruence].
  apply Forall_app in F. destruct F as [_ F]. inversion F as [|? ? Fa _]; subst. cbn in Fa. congruence.
Qed.
Lemma disciplined_lower hf s acts o D : Forall fitting acts -> gd s = true -> lostly o D -> h_disciplined hf s acts -> disciplined hf s (lower acts ++ D).
Proof.
  intros F Gs L (H1 & H2). split; [split|].
  - intros m. apply (no_puts s acts D o m F Gs L).
  - intros before m1 between m2 after k r E Hk A1 A2.
    assert (NoS : forall m A B, D = A ++ ASend s m :: B -> False) by (intros m A B ->; destruct (L _ _ _ eq_refl) as (x & Ex & _); discriminate).
    apply split_app in E. destruct E as [(l2 & E & E2)|(P2 & -> & E)]; [|exfalso; exact (NoS _ _ _ E)].
    apply low_send in E. destruct E as (b1 & x1 & b2 & -> & -> & -> & _ & El2). rewrite El2 in E2. symmetry in E2. apply split_app in E2.
    destruct E2 as [(l3 & E & _)|(P2 & _ & E)]; [|exfalso; exact (NoS _ _ _ E)].
    apply low_send in E. destruct E as (b3 & x2 & b4 & -> & -> & -> & _ & _). rewrite asks_normalise in A1, A2.
    apply low_leave. exact (H1 _ _ _ _ _ _ _ eq_refl Hk A1 A2).
  - intros ->. destruct (H2 eq_refl) as [H3 H4]. split.
    + unfold admitted_once. rewrite joined_app. unfold HostileSim.lower. rewrite low_joined, (joined_none D), app_nil_r; [exact H3|].
      intros x Hx d ->. destruct (lostly_in _ _ _ L Hx); discriminate.
    + left. intros m [H|H]; [|destruct (no_puts s acts D o _ F Gs L H)].
      apply in_app_or in H. destruct H as [H|H]; [|destruct (lostly_in _ _ _ L H); discriminate].
      apply in_lower in H. destruct H as (b & a & f & -> & m0 & cl & w & -> & E & _). destruct m0; try discriminate. injection E as ->. apply (H4 m0). apply in_elt.
Qed.
Lemma allowed_lower (Gd : Z -> Prop) hf acts o D : Forall fitting acts -> h_routings acts <= 2 ^ 53 -> lostly o D ->
  (forall s, Gd s -> gd s = true /\ h_disciplined hf s acts) -> allowed Gd hf (lower acts ++ D).
Proof.
  intros F R L H. split.
  - rewrite routings_app, (lostly_routings _ _ L). pose proof (low_routings acts bnet_init net_init). unfold HostileSim.lower, ID_MAX. lia.
  - intros s Hs. destruct (H s Hs) as [Gs Hd]. apply (disciplined_lower hf s acts o D); assumption.
Qed.

(** ** States *)
Lemma connected_lower s n o : hsim n o -> bytes_connected s n = connected s o.
Proof.
  intros (L & _). assert (G := halike_get gd s _ _ L). unfold bytes_connected, connected, zmem, dmem.
  unfold zget in G. destruct (dget Z.eqb s (bn_clients _)), (dget Z.eqb s (nt_clients _)); try contradiction; reflexivity.
Qed.
Definition plain (m : message) : Prop := match m with Subscribe _ | Unsubscribe _ | Publish _ | Register _ | Unregister _ | Call _ => True | _ => False end.
Lemma low1_send n o s m : hsim n o -> gd s = true -> bytes_connected s n = true -> sendable m -> plain m -> low1 n o (HAct (WSend s m)) = [ASend s (normalise m)].
Proof.
  intros (L & _) Gs C Sm P. cbn [HostileSim.low1]. rewrite Gs. assert (G := halike_get gd s _ _ L). unfold bytes_connected, zmem, dmem in C.
  unfold zget in *. destruct (dget Z.eqb s (bn_clients n)) as [[c se up down]|]; [|discriminate]. destruct (dget Z.eqb s (nt_clients o)); [|contradiction].
  unfold hlike in G. rewrite Gs in G. destruct G as (Hc & _). cbn [bc_codec bc_session] in *.
  destruct (good_wire c _ Hc (sendable_normalise m Sm)) as (w & Sw & _). assert (S' : serialize c m = Ok w) by (unfold serialize in *; rewrite marshal_normalise in Sw; exact Sw).
  unfold send_message. destruct m; try contradiction; cbn [send_track]; try (destruct (truthy _)); cbn [snd bind]; rewrite S'; reflexivity.
Qed.

(** ** What honest clients hold *)
Lemma keeps_lower s i m acts n o D o' : h_keeps_on s i m acts -> lostly o' D -> keeps_on s i (normalise m) (low n o acts ++ D).
Proof.
  intros [H1 H2] L. split.
  - intros H. apply in_app_or in H. destruct H as [H|H]; [exact (no_leave s acts n o H1 H)|destruct (lostly_in _ _ _ L H); discriminate].
  - intros u H. apply in_app_or in H. destruct H as [H|H]; [|destruct (lostly_in _ _ _ L H); discriminate].
    apply in_low in H. destruct H as (b & a & f & -> & H). apply in_low1 in H. destruct H as (u0 & cl & w & -> & -> & _). rewrite ends_normalise. apply H2, in_elt.
Qed.
Lemma fitting_app a b : Forall fitting (a ++ b) -> Forall fitting a /\ Forall fitting b.
Proof. apply Forall_app. Qed.
Lemma h_app_cons {A} (a : list A) x b : a ++ x :: b = (a ++ [x]) ++ b.
Proof. rewrite <- app_assoc. reflexivity. Qed.
Lemma lower_send before s m after : Forall fitting (before ++ HAct (WSend s m) :: after) -> gd s = true -> bytes_connected s (fst (hrun before)) = true -> plain m ->
  lower (before ++ [HAct (WSend s m)]) = lower before ++ [ASend s (normalise m)] /\
  lower (before ++ HAct (WSend s m) :: after) = lower before ++ ASend s (normalise m) :: low (fst (hrun (before ++ [HAct (WSend s m)]))) (at_end (lower before ++ [ASend s (normalise m)])) after.
Proof.
  intros F Gs C P. destruct (fitting_app _ _ F) as [F1 F2]. inversion F2 as [|? ? Fm _]; subst.
  assert (E : lower (before ++ [HAct (WSend s m)]) = lower before ++ [ASend s (normalise m)]).
  { rewrite lower_app. cbn [HostileSim.low]. rewrite app_nil_r. f_equal. apply low1_send; auto. apply hsim_run, F1. }
  split; [exact E|]. rewrite h_app_cons, lower_app, E, <- app_assoc. reflexivity.
Qed.
Lemma holding_lower s m i acts : Forall fitting acts -> gd s = true -> claims m -> h_holding s m i acts -> holding s (normalise m) i (lower acts).
Proof.
  intros F Gs Cm (a1 & a2 & x & -> & C & K & (b1 & b2 & r & E2 & D) & G). destruct (fitting_app _ _ F) as [F1 F2].
  assert (Pm : plain m) by (destruct m; try contradiction; exact Logic.I).
  destruct (lower_send a1 s m a2 F Gs C Pm) as [El Ea].
  set (X := a1 ++ [HAct (WSend s m)]) in *. assert (FX : Forall fitting (X ++ b1)).
  { unfold X. rewrite <- app_assoc. cbn [app]. rewrite E2 in F. rewrite h_app_cons, app_assoc in F. apply Forall_app in F. destruct F as [F _]. rewrite <- app_assoc in F. exact F. }
  assert (S := hsim_run gd (X ++ b1) FX). destruct (deliver_sim gd _ _ s _ _ S Gs D) as (k & m' & r0 & E1 & Ed & (Fm & M1 & M2 & M3 & M4) & _).
  assert (Hx : same_head m' x) by (apply M2; reflexivity).
  assert (m' = x) by (destruct m; try contradiction; destruct x; try discriminate G; destruct m'; cbn in Hx; congruence). subst m'.
  exists (lower a1), (low (fst (hrun X)) (at_end (lower a1 ++ [ASend s (normalise m)])) a2), x.
  split; [exact Ea|]. split; [pose proof (connected_lower s _ _ (hsim_run gd a1 F1)) as Q; unfold at_end in Q; rewrite <- Q; exact C|].
  split; [rewrite <- (app_nil_r (low _ _ _)); apply keeps_lower with (o' := net_init); [exact K|apply lostly_nil]|].
  split; [|rewrite grants_normalise; exact G].
  exists (low (fst (hrun X)) (at_end (lower a1 ++ [ASend s (normalise m)])) b1 ++ repeat (ADeliver s) k),
    (low (fst (hstep (fst (hrun (X ++ b1))) (HAct (WDeliver s)))) (steps (at_end (lower (X ++ b1))) (low1 (fst (hrun (X ++ b1))) (at_end (lower (X ++ b1))) (HAct (WDeliver s)))) b2), r0.
  assert (Eb : lower a1 ++ [ASend s (normalise m)] ++ low (fst (hrun X)) (at_end (lower a1 ++ [ASend s (normalise m)])) b1 = lower (X ++ b1)).
  { rewrite (lower_app gd X b1), El, <- app_assoc. reflexivity. }
  split.
  - rewrite E2, low_app. cbn [HostileSim.low]. rewrite <- app_assoc. f_equal. rewrite hsteps_from, steps_from. rewrite <- app_assoc, Eb, E1, <- app_assoc. reflexivity.
  - fold (at_end ((lower a1 ++ [ASend s (normalise m)]) ++ low (fst (hrun X)) (at_end (lower a1 ++ [ASend s (normalise m)])) b1 ++ repeat (ADeliver s) k)).
    replace ((lower a1 ++ [ASend s (normalise m)]) ++ low (fst (hrun X)) (at_end (lower a1 ++ [ASend s (normalise m)])) b1 ++ repeat (ADeliver s) k)
      with (lower (X ++ b1) ++ repeat (ADeliver s) k) by (rewrite <- Eb, <- !app_assoc; reflexivity).
    rewrite <- steps_from. exact Ed.
Qed.
Lemma honest_fitting acts : (forall s, gd s = true -> honest s acts) -> Forall fitting acts.
Proof.
  intros H. rewrite Forall_forall. intros a Ha. assert (K : forall s, gd s = true -> match a with HAct (WJoin d c) => pyint_Z (det_session d) = s -> is_python_codec c | HAct (WSend s' m) => s' = s -> sendable m | HPut s' _ => s' <> s | _ => True end).
  { intros s Gs. specialize (H s Gs). unfold honest in H. rewrite Forall_forall in H. exact (H a Ha). }
  destruct a as [[det c|s|s m|s|s]|s b]; cbn; try exact Logic.I.
  - intros G. exact (K _ G eq_refl).
  - intros G. exact (K _ G eq_refl).
  - destruct (gd s) eqn:G; [|reflexivity]. destruct (K _ G eq_refl).
Qed.

(** ** Good messages arrive *)
Lemma accepts_lower X s x after D : Forall fitting (X ++ after) -> lostly (at_end (lower (X ++ after))) D ->
  (fit x -> good x) ->
  accepts (lower X) s x (low (fst (hrun X)) (at_end (lower X)) after ++ D) -> h_accepts X s x after.
Proof.
  intros F L G (b1 & b2 & E & Ed). fold (at_end (lower X ++ b1)) in Ed. destruct (fitting_app _ _ F) as [F1 F2].
  assert (S := hsim_run gd X F1). apply split_app in E. destruct E as [(l2 & E & _)|(P2 & -> & E)].
  - rewrite <- steps_from in Ed. destruct (low_deliver s _ _ _ _ _ _ _ S F2 E Ed) as [[X1 X2]|(c1 & c2 & d & r & k & -> & Eh & (M0 & M1 & M2 & M3 & _) & _)]; [destruct (X2 (G X1))|].
    exists c1, c2. split; [reflexivity|]. rewrite hsteps_from in Eh. rewrite Eh. assert (d = Ok x) by (apply M1, G, M0). subst d. rewrite (M3 eq_refl x eq_refl). reflexivity.
  - destruct (L _ _ _ E) as (s0 & [= <-] & m & r & Em & Fm & Ng). rewrite lower_app, steps_from, <- app_assoc in Em. rewrite Ed in Em. injection Em as <- _. destruct (Ng (G Fm)).
Qed.
Lemma got_lower acts s m D : Forall fitting acts -> lostly (at_end (lower acts)) D ->
  (forall x, answers m x = true -> fit x -> good x) -> got_answer s (normalise m) (snd (nrun (lower acts ++ D))) -> h_got_answer s m (snd (hrun acts)).
Proof.
  intros F L G (x & A & H). rewrite answers_normalise in A. exists x. split; [exact A|]. apply trace_pos in H. destruct H as (P & Q & E & Ed).
  destruct (accepts_lower [] s x acts D F L (G x A)) as (c1 & c2 & E2 & Eh).
  - exists P, Q. split; [exact E|exact Ed].
  - rewrite E2. cbn [app] in Eh. rewrite <- Eh. apply h_in_trace.
Qed.
End Lowering.

(** ** Which messages are good *)
Lemma event_good p i pid : good (Publish p) -> fit (Event (mkEvent i pid (pb_args p) (pb_kwargs p) [])) -> good (Event (mkEvent i pid (pb_args p) (pb_kwargs p) [])).
Proof.
  intros [[W P] N] [G|[H1 H2]]; [exact G|]. cbn [ev_subscription ev_publication] in *.
  apply fine_parts in P. cbn [marshal] in P. unfold marshal_publish in P. apply Forall_app in P. destruct P as [_ P].
  apply simple_good; [split; assumption| | |].
  - assert (NA : norm_args (pb_args p) (pb_kwargs p) = pb_args p). { injection N as N. destruct p as [a1 a2 a3 a4 a5]. cbn in *. congruence. }
    cbn [normalise ev_subscription ev_publication ev_args ev_kwargs ev_details]. rewrite NA. reflexivity.
  - cbn [marshal]. unfold marshal_event. rewrite app_length. cbn [ev_args ev_kwargs]. pose proof (tail_length (pb_args p) (pb_kwargs p)). cbn [length]. lia.
  - cbn [marshal]. unfold marshal_event. apply Forall_app. split; [|exact P]. clear P. cbn [ev_subscription ev_publication ev_details].
    each; [apply fine_int; split; [discriminate|reflexivity]|apply fine_wf, H1|apply fine_wf, H2|apply fine_nil].
Qed.
Lemma invocation_good m j i : good (Call m) -> fit (invocation_for m j i) -> good (invocation_for m j i).
Proof.
  intros [[W P] N] [G|[H1 H2]]; [exact G|]. cbn [iv_request iv_registration] in *.
  apply fine_parts in P. cbn [marshal] in P. unfold marshal_call in P. apply Forall_app in P. destruct P as [_ P].
  assert (NB : ca_bin m = no_payload). { injection N as N. destruct m as [a1 a2 a3 a4 a5 a6]. cbn in *. congruence. }
  assert (NA : norm_args (ca_args m) (ca_kwargs m) = ca_args m). { injection N as N. destruct m as [a1 a2 a3 a4 a5 a6]. cbn in *. congruence. }
  unfold invocation_for. rewrite NB. cbn [bp_serializer bp_payload no_payload].
  apply simple_good; [split; assumption| | |].
  - cbn [normalise iv_request iv_registration iv_args iv_kwargs iv_dets iv_bin]. rewrite NA. reflexivity.
  - cbn [marshal]. unfold marshal_invocation. rewrite app_length. pose proof (tail_length (ca_args m) (ca_kwargs m)). cbn [length iv_args iv_kwargs]. lia.
  - cbn [marshal]. unfold marshal_invocation. apply Forall_app. split; [|exact P]. clear P.
    each; [apply fine_int; split; [discriminate|reflexivity]|apply (fine_wf _ H1)|apply (fine_wf _ H2)|].
    assert (K1 := fine_text OPTION_RECEIVE_PROGRESS ltac:(cbn; lia) eq_refl). assert (K2 := fine_text OPTION_PROGRESS ltac:(cbn; lia) eq_refl).
    change (iv_details _) with (call_details m). unfold call_details. destruct (wants "receive_progress" _), (wants "progress" _); cbn [app]; vm_compute; repeat split; repeat constructor; try discriminate; cbn; intuition congruence.
Qed.
Lemma reply_good c u j : good (Call c) -> good u -> replies j u = true -> good (reply_to c u).
Proof.
  intros [[Wc _] _] [[W P] N] R. cbn [wf_message wf_message_with] in Wc. apply fine_parts in P. destruct u; try discriminate R; cbn [reply_to marshal] in *.
  - unfold marshal_error in P. apply Forall_app in P. destruct P as [P0 P].
    assert (NA : norm_args (er_args m) (er_kwargs m) = er_args m). { injection N as N. destruct m as [a1 a2 a3 a4 a5 a6]. cbn in *. congruence. }
    apply simple_good; [exact Wc| | |].
    + cbn [rt_message normalise er_type er_request er_uri er_args er_kwargs er_details]. rewrite NA. reflexivity.
    + cbn [rt_message marshal]. unfold marshal_error. rewrite app_length. pose proof (tail_length (er_args m) (er_kwargs m)). cbn [length er_args er_kwargs]. lia.
    + cbn [rt_message marshal]. unfold marshal_error. apply Forall_app. split; [|exact P]. clear P.
      inversion P0 as [|? ? _ P1]; inversion P1 as [|? ? _ P2]; inversion P2 as [|? ? _ P3]; inversion P3 as [|? ? D P4]; inversion P4 as [|? ? U _].
      each; [apply fine_int; split; [discriminate|reflexivity]|apply fine_int; split; [discriminate|reflexivity]|apply fine_wf, Wc|exact D|exact U].
  - unfold marshal_yield in P. apply Forall_app in P. destruct P as [P0 P].
    assert (NA : norm_args (yi_args m) (yi_kwargs m) = yi_args m). { injection N as N. destruct m as [a1 a2 a3 a4 a5]. cbn in *. congruence. }
    apply simple_good; [exact Wc| | |].
    + cbn [normalise re_request re_args re_kwargs re_dets re_bin]. rewrite NA. reflexivity.
    + cbn [marshal]. unfold marshal_result. rewrite app_length. pose proof (tail_length (yi_args m) (yi_kwargs m)). cbn [length re_args re_kwargs]. lia.
    + cbn [marshal]. unfold marshal_result. apply Forall_app. split; [|exact P]. clear P P0.
      each; [apply fine_int; split; [discriminate|reflexivity]|apply fine_wf, Wc|apply fine_nil].
Qed.
