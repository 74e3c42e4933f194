(** * HostileHold: events and invocations come only while the client holds what they are about, whatever bytes others send. *)
From Coq Require Import String Ascii List ZArith Bool Lia.
From Verif Require Import PyBase Encoding Messages Validate Parse IdGen Serializer Codecs Session Joiner Broker Dealer SpecDealer Network SpecNetwork NetworkFacts NetworkInv NetworkLive NetworkFlow NetworkDelivery.
From Verif Require Import DictFacts BrokerFacts DealerFacts SpecSchema SpecCodec ByteNetwork SpecByteNetwork ByteNetworkFacts ByteFlowFacts.
From Verif Require Import HeaderFacts HostileNetwork SpecHostile HostileFacts HostileSim HostileFlow HostileLive NetworkHold SpecHold SpecHostileHold.
Import ListNotations.
Local Open Scope string_scope.
Local Open Scope Z_scope.
Local Open Scope list_scope.

Lemma repeat_pos {A} (x y : A) k P Q : repeat x k = P ++ y :: Q -> exists i, (i < k)%nat /\ P = repeat x i /\ y = x.
Proof.
  revert P. induction k as [|k IH]; intros P E; [destruct P; discriminate|]. destruct P as [|z P]; cbn in E.
  - injection E as <- E. exists O. repeat split; lia.
  - injection E as <- E. destruct (IH P E) as (i & Hi & -> & ->). exists (S i). repeat split; lia.
Qed.
Theorem h_only_while_held hf acts s x i : honest s acts -> h_routings acts <= 2 ^ 53 -> h_disciplined hf s acts ->
  h_next_is acts s x -> about hf x = Some i -> h_held hf acts s i.
Proof.
  intros H R P (r & Hx) Ab. assert (F := one_fitting _ _ H). set (gd := one s) in *. assert (Gs : gd s = true) by apply one_is.
  destruct (deliver_sim gd _ _ s _ _ (hsim_run gd acts F) Gs Hx) as (k & m & r0 & E1 & Ed & (Fm & _ & M2 & _) & Lost & _).
  assert (Am : about hf m = Some i).
  { specialize (M2 x eq_refl). destruct hf, x; try discriminate Ab; destruct m; cbn in M2; try discriminate M2; try contradiction; cbn in *; destruct M2 as [X Y]; try congruence. }
  assert (A : allowed (eq s) hf (lower gd acts ++ repeat (ADeliver s) k)).
  { apply (allowed_lower gd (eq s) hf acts (at_end (lower gd acts)) _ F R); [|intros s0 <-; auto].
    intros A y B E. apply repeat_pos in E. destruct E as (j & Hj & -> & ->). exists s. split; [reflexivity|]. destruct (Lost j Hj) as (m1 & r1 & X). exists m1, r1. exact X. }
  assert (O : held hf (lower gd acts ++ repeat (ADeliver s) k) s i).
  { apply (only_while_held (eq s) hf _ s m i eq_refl A); [|exact Am]. exists r0. rewrite steps_from in Ed. exact Ed. }
  destruct O as (A1 & y & A2 & EA & (r1 & Hy) & Gy & Nl & Nt).
  assert (Gd : fit y -> good y). { intros [G|G]; [exact G|]. destruct hf, y; try discriminate Gy; contradiction. }
  symmetry in EA. apply eq_sym, split_app in EA. destruct EA as [(l2 & EA & EA2)|(P2 & -> & E)].
  2:{ exfalso. apply repeat_pos in E. destruct E as (j & Hj & -> & _). destruct (Lost j Hj) as (m1 & r2 & X & Y & Z0). rewrite steps_from in X. unfold at_end in X. rewrite Hy in X. injection X as <- _. exact (Z0 (Gd Y)). }
  change (lower gd acts) with (low gd bnet_init net_init acts) in EA. fold (at_end A1) in Hy. rewrite <- steps_run in Hy.
  destruct (low_deliver gd s acts bnet_init net_init _ _ _ _ (hsim_init gd) F EA Hy) as [[X1 X2]|(b1 & b2 & d & r' & k1 & -> & Eh & (M0 & M1 & _) & EA1 & El & EB)]; [destruct (X2 (Gd X1))|].
  rewrite hsteps_run in Eh. assert (d = Ok y) by (apply M1, Gd, M0). subst d.
  change (low gd bnet_init net_init b1) with (lower gd b1) in EA1. rewrite hsteps_run, steps_run in El. change (low gd bnet_init net_init b1) with (lower gd b1) in El.
  exists b1, y, b2. split; [reflexivity|]. split; [exists r'; exact Eh|]. split; [exact Gy|]. split.
  { intros K. apply Nl. rewrite EA2. apply in_or_app. left. rewrite EB. apply low_leave, K. }
  intros b c -> (x' & bb & u & cc & (rx & Nx) & Hh & Ep & Cn & Nlv & Cf). set (Q := b1 ++ HAct (WDeliver s) :: b) in *.
  assert (FQ : Forall (fitting gd) Q /\ Forall (fitting gd) (HAct (WDeliver s) :: c)).
  { apply Forall_app. unfold Q. rewrite <- app_assoc. exact F. }
  destruct FQ as [FQ _]. destruct (deliver_sim gd _ _ s _ _ (hsim_run gd Q FQ) Gs Nx) as (k2 & m' & r2 & E2 & Ed2 & (_ & _ & M2' & _) & _).
  specialize (M2' x' eq_refl). assert (m' = x').
  { destruct u; try discriminate Cf; destruct x'; try discriminate Cf; destruct m'; cbn in M2'; congruence. } subst m'.
  assert (LQ : lower gd Q = A1 ++ ADeliver s :: low gd (fst (hrun (b1 ++ [HAct (WDeliver s)]))) (at_end (lower gd (b1 ++ [HAct (WDeliver s)]))) b).
  { assert (L1 : lower gd (b1 ++ [HAct (WDeliver s)]) = A1 ++ [ADeliver s]) by (rewrite lower_app; cbn [HostileSim.low]; rewrite app_nil_r, El, EA1, <- !app_assoc; reflexivity).
    unfold Q. rewrite h_app_cons, lower_app, L1, <- app_assoc. reflexivity. }
  set (C := low gd (fst (hrun (b1 ++ [HAct (WDeliver s)]))) (at_end (lower gd (b1 ++ [HAct (WDeliver s)]))) b) in *.
  rewrite steps_from in Ed2.
  apply (Nt (C ++ repeat (ADeliver s) k2) (low gd (fst (hrun (Q ++ [HAct (WDeliver s)]))) (at_end (lower gd (Q ++ [HAct (WDeliver s)]))) c ++ repeat (ADeliver s) k)).
  - rewrite EA2, EB, hsteps_run, steps_run. change (low gd bnet_init net_init (b1 ++ [HAct (WDeliver s)])) with (lower gd (b1 ++ [HAct (WDeliver s)])).
    rewrite low_app. fold C. cbn [HostileSim.low].
    assert (EQ : (b1 ++ [HAct (WDeliver s)]) ++ b = Q) by (unfold Q; rewrite <- app_assoc; reflexivity).
    assert (ES : steps (at_end (lower gd (b1 ++ [HAct (WDeliver s)]))) C = at_end (lower gd Q)) by (unfold C; rewrite steps_from, <- lower_app, EQ; reflexivity).
    rewrite hsteps_from, ES, EQ, E2. rewrite steps_from, <- E2. replace (lower gd Q ++ low1 gd (fst (hrun Q)) (at_end (lower gd Q)) (HAct (WDeliver s))) with (lower gd (Q ++ [HAct (WDeliver s)])) by (rewrite lower_app; cbn [HostileSim.low]; rewrite app_nil_r; reflexivity).
    replace (fst (hstep (fst (hrun Q)) (HAct (WDeliver s)))) with (fst (hrun (Q ++ [HAct (WDeliver s)]))) by (rewrite <- hsteps_from; reflexivity).
    rewrite E2, <- !app_assoc. reflexivity.
  - exists x'. replace (A1 ++ ADeliver s :: C ++ repeat (ADeliver s) k2) with (lower gd Q ++ repeat (ADeliver s) k2) by (rewrite LQ, <- app_assoc; reflexivity).
    assert (Pu : plain u) by (destruct u; try discriminate Cf; exact Logic.I). rewrite Ep in FQ. destruct (fitting_app _ _ _ FQ) as [Fb _].
    destruct (lower_send gd bb s u cc FQ Gs Cn Pu) as [_ Lu]. rewrite Ep.
    eexists (lower gd bb), (normalise u), _. split; [exists r2; rewrite <- Ep; exact Ed2|]. split; [exact Hh|]. split; [rewrite Lu, <- app_assoc; reflexivity|].
    split; [pose proof (connected_lower gd s _ _ (hsim_run gd bb Fb)) as Y; unfold at_end in Y; rewrite <- Y; exact Cn|]. split.
    + intros K. apply in_app_or in K. destruct K as [K|K]; [revert K; apply no_leave, Nlv|apply repeat_spec in K; discriminate].
    + destruct u; try discriminate Cf; exact Cf.
Qed.
