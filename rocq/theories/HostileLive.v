(** * HostileLive: the guarantees of C113 for clients of this library in a network with hostile clients. *)
From Coq Require Import String Ascii List ZArith Bool Lia.
From Verif Require Import PyBase Encoding Messages Validate Parse IdGen Serializer Codecs Session Joiner Broker Dealer SpecDealer Network SpecNetwork NetworkFacts NetworkInv NetworkLive NetworkFlow NetworkDelivery.
From Verif Require Import DictFacts BrokerFacts DealerFacts SpecSchema RoundTripFacts SpecCodec CodecFacts CodecsFacts HandshakeFacts HandshakeCodec ByteNetwork SpecByteNetwork ByteNetworkFacts ByteFlowFacts.
From Verif Require Import HeaderFacts HostileNetwork SpecHostile HostileFacts HostileSim HostileFlow.
Import ListNotations.
Local Open Scope string_scope.
Local Open Scope Z_scope.
Local Open Scope list_scope.

Definition one (s x : Z) : bool := x =? s.
Definition two (s s' x : Z) : bool := (x =? s) || (x =? s').
Lemma one_fitting s acts : honest s acts -> Forall (fitting (one s)) acts.
Proof. intros H. apply honest_fitting. intros x G. apply Z.eqb_eq in G. subst x. exact H. Qed.
Lemma two_fitting s s' acts : honest s acts -> honest s' acts -> Forall (fitting (two s s')) acts.
Proof. intros H H'. apply honest_fitting. intros x G. apply orb_true_iff in G. destruct G as [G|G]; apply Z.eqb_eq in G; subst x; assumption. Qed.
Lemma one_is s : one s s = true. Proof. apply Z.eqb_refl. Qed.
Lemma two_fst s s' : two s s' s = true. Proof. unfold two. rewrite Z.eqb_refl. reflexivity. Qed.
Lemma two_snd s s' : two s s' s' = true. Proof. unfold two. rewrite Z.eqb_refl. apply orb_true_r. Qed.
Lemma allowed_honest hf s acts o D : honest s acts -> h_routings acts <= 2 ^ 53 -> h_disciplined hf s acts -> lostly o D -> allowed (eq s) hf (lower (one s) acts ++ D).
Proof. intros H R P L. apply (allowed_lower (one s) (eq s) hf acts o D (one_fitting _ _ H) R L). intros x <-. split; [apply one_is|exact P]. Qed.

Theorem h_accepted hf acts s d r : honest s acts -> h_routings acts <= 2 ^ 53 -> h_disciplined hf s acts ->
  In (HAct (WDeliver s), WDelivered d r) (snd (hrun acts)) ->
  match d with Ok m => message_half m = Some hf -> r = Ok m | Raise e => r = Raise e end.
Proof.
  intros H R P I0. apply h_trace_pos in I0. destruct I0 as (A & B & E & Ed). assert (F := one_fitting _ _ H). rewrite E in F. destruct (fitting_app _ _ _ F) as [FA FB].
  destruct (deliver_sim (one s) _ _ s d r (hsim_run _ _ FA) (one_is s) Ed) as (k & m & r0 & E1 & En & (Fm & _ & M2 & M3 & M4) & _).
  destruct d as [m'|e]; [|exact (M4 e eq_refl)]. intros Hm. specialize (M2 m' eq_refl). refine (M3 _ m' eq_refl).
  rewrite (same_head_half _ _ M2) in Hm.
  apply (deliveries_accepted (eq s) hf (lower (one s) acts ++ []) s m r0 eq_refl (allowed_honest hf s acts net_init [] H R P (lostly_nil _))); [|exact Hm].
  rewrite steps_from in En. rewrite <- En, app_nil_r, E, lower_app. cbn [HostileSim.low]. rewrite E1, <- app_assoc, app_assoc. apply in_trace.
Qed.

Lemma plain_answer_good m x : match m with Call _ => False | _ => True end -> answers m x = true -> fit x -> good x.
Proof.
  intros N A [G|H]; [exact G|]. destruct m; try contradiction; destruct x; try discriminate A; try contradiction; cbn [headed] in H; destruct H as [H _]; cbn [answers] in A; rewrite H in A; discriminate A.
Qed.
Theorem h_answered hf before s m after k r : let acts := before ++ HAct (WSend s m) :: after in
  honest s acts -> h_routings acts <= 2 ^ 53 -> h_disciplined hf s acts -> match m with Call _ => False | _ => plain m end ->
  in_half hf k = true -> keeps k = true -> k <> RCall -> up_req k m = Some r ->
  bytes_connected s (fst (hrun before)) = true -> ~ In (HAct (WLeave s)) after -> bytes_idle s (fst (hrun acts)) ->
  h_got_answer s m (snd (hrun acts)).
Proof.
  intros acts H R P Hm Hk Hkeep Hne Hu Hc Hl Hi. assert (F := one_fitting _ _ H). assert (Pm : plain m) by (destruct m; first [exact Hm|contradiction]).
  destruct (drain_all (one s) _ [s] _ (hsim_run (one s) acts F)) as (D & I & L & _); [intros x [<-|[]]; split; [apply one_is|exact Hi]|].
  assert (A := allowed_honest hf s acts _ D H R P L). destruct (lower_send (one s) before s m after F (one_is s) Hc Pm) as [_ El]. fold acts in El.
  apply (got_lower (one s) acts s m D F L); [intros x; apply plain_answer_good; destruct m; auto|].
  specialize (I s (or_introl eq_refl)). rewrite steps_from in I. rewrite El, <- app_assoc in *. cbn [app] in *.
  destruct (requests_answered (eq s) hf (lower (one s) before) s (normalise m) _ k r eq_refl A Hk Hkeep) as [G|[G _]].
  - destruct m; exact Hu.
  - destruct (fitting_app _ _ _ F) as [F1 _]. pose proof (connected_lower (one s) s _ _ (hsim_run (one s) before F1)) as Q. unfold at_end in Q. rewrite <- Q. exact Hc.
  - intros K. apply in_app_or in K. destruct K as [K|K]; [revert K; apply no_leave, Hl|destruct (lostly_in _ _ _ L K); discriminate].
  - exact I.
  - exact G.
  - contradiction.
Qed.
Theorem h_end_answered before s m i u after : let acts := before ++ HAct (WSend s u) :: after in
  honest s acts -> h_routings acts <= 2 ^ 53 -> h_disciplined (half_of m) s acts -> claims m ->
  h_holding s m i before -> ends i m u = true -> ~ In (HAct (WLeave s)) after -> bytes_idle s (fst (hrun acts)) ->
  h_accepts (before ++ [HAct (WSend s u)]) s (end_answer u) after.
Proof.
  intros acts H R P Cm Hh He Hl Hi. assert (F := one_fitting _ _ H).
  assert (Hc : bytes_connected s (fst (hrun before)) = true).
  { destruct (fitting_app _ _ _ F) as [F1 _]. assert (A := allowed_honest (half_of m) s acts net_init [] H R P (lostly_nil _)). unfold acts in A. rewrite lower_app, <- app_assoc in A. apply allowed_app in A.
    assert (A' : allowed (eq s) (half_of (normalise m)) (lower (one s) before)) by (destruct m; try contradiction; exact A).
    destruct (holding_held (eq s) s (normalise m) i _ eq_refl ltac:(destruct m; try contradiction; exact Logic.I) A' (holding_lower (one s) s m i before F1 (one_is s) Cm Hh)) as (_ & cl & G & _).
    rewrite (connected_lower (one s) s _ _ (hsim_run (one s) before F1)). unfold connected, zmem, dmem. unfold zget in G. rewrite G. reflexivity. }
  assert (Pu : plain u) by (destruct m, u; try discriminate He; exact Logic.I).
  destruct (drain_all (one s) _ [s] _ (hsim_run (one s) acts F)) as (D & I & L & _); [intros x [<-|[]]; split; [apply one_is|exact Hi]|].
  assert (A := allowed_honest (half_of m) s acts _ D H R P L). destruct (lower_send (one s) before s u after F (one_is s) Hc Pu) as [Ex El]. fold acts in El.
  destruct (fitting_app _ _ _ F) as [F1 _].
  specialize (I s (or_introl eq_refl)). rewrite steps_from in I.
  apply (accepts_lower (one s) _ _ _ _ D).
  - rewrite <- app_assoc. exact F.
  - rewrite <- app_assoc. exact L.
  - intros [G|G]; [exact G|]. destruct m, u; try discriminate He; contradiction.
  - rewrite Ex. rewrite El, <- app_assoc in *. cbn [app] in *.
    replace (end_answer u) with (end_answer (normalise u)) by (destruct m, u; try discriminate He; reflexivity).
    apply (end_answered (eq s) _ s (normalise m) i (normalise u)); auto.
    + destruct m; try contradiction; exact Logic.I.
    + destruct m; try contradiction; exact A.
    + apply holding_lower; auto. apply one_is.
    + rewrite ends_normalise. exact He.
    + intros K. apply in_app_or in K. destruct K as [K|K]; [revert K; apply no_leave, Hl|destruct (lostly_in _ _ _ L K); discriminate].
Qed.

Theorem h_event_arrives before s q i s' p after : let acts := before ++ HAct (WSend s' (Publish p)) :: after in
  honest s acts -> honest s' acts -> h_routings acts <= 2 ^ 53 -> h_disciplined PubSub s acts ->
  h_holding s (Subscribe q) i before -> pb_topic p = su_topic q -> bytes_connected s' (fst (hrun before)) = true ->
  ~ In (HAct (WLeave s')) after -> h_keeps_on s i (Subscribe q) after -> bytes_idle s' (fst (hrun acts)) -> bytes_idle s (fst (hrun acts)) ->
  exists pid,
    h_accepts (before ++ [HAct (WSend s' (Publish p))]) s (Event (mkEvent (PyInt i) (PyInt pid) (norm_args (pb_args p) (pb_kwargs p)) (pb_kwargs p) [])) after /\
    (h_disciplined PubSub s' acts -> wants "acknowledge" (pb_options p) = true ->
     h_accepts (before ++ [HAct (WSend s' (Publish p))]) s' (Published (mkPublished (pb_request p) (PyInt pid))) after).
Proof.
  intros acts H H' R P Hh Ht Hc Hl Hk Hi' Hi. set (gd := two s s'). assert (F := two_fitting _ _ _ H H' : Forall (fitting gd) acts).
  assert (G1 : gd s = true) by apply two_fst. assert (G2 : gd s' = true) by apply two_snd.
  destruct (drain_all gd _ [s; s'] _ (hsim_run gd acts F)) as (D & I & L & _); [intros x [<-|[<-|[]]]; split; assumption|].
  assert (I1 := I s (or_introl eq_refl)). assert (I2 := I s' (or_intror (or_introl eq_refl))). clear I. rewrite steps_from in I1, I2.
  assert (A := allowed_lower gd (fun x => gd x = true /\ h_disciplined PubSub x acts) PubSub acts _ D F R L (fun x Hx => Hx)).
  destruct (lower_send gd before s' (Publish p) after F G2 Hc Logic.I) as [Ex El]. fold acts in El. destruct (norm_pub p) as (p' & E & Et & Er & Eo & Ea & Ek). rewrite E in *.
  destruct (fitting_app _ _ _ F) as [F1 F2]. assert (Gp : good (Publish p')).
  { inversion F2 as [|? ? Fp _]; subst. rewrite <- E. apply sendable_normalise. exact (Fp G2). }
  assert (EA : lower gd acts ++ D = lower gd before ++ ASend s' (Publish p') :: (low gd (fst (hrun (before ++ [HAct (WSend s' (Publish p))]))) (at_end (lower gd before ++ [ASend s' (Publish p')])) after ++ D))
    by (rewrite El, <- app_assoc; reflexivity).
  rewrite EA in A, I1, I2.
  destruct (event_arrives (fun x => gd x = true /\ h_disciplined PubSub x acts) (lower gd before) s q i s' p' _ (conj G1 P) A) as (pid & A1 & A2).
  - apply (holding_lower gd s (Subscribe q) i before F1 G1 Logic.I Hh).
  - congruence.
  - rewrite <- (connected_lower gd s' _ _ (hsim_run gd before F1)). exact Hc.
  - intros K. apply in_app_or in K. destruct K as [K|K]; [revert K; apply no_leave, Hl|destruct (lostly_in _ _ _ L K); discriminate].
  - apply (keeps_lower gd s i (Subscribe q) after _ _ D _ Hk L).
  - exact I2.
  - exact I1.
  - exists pid. rewrite <- Ex in A1, A2. assert (Es : acts = (before ++ [HAct (WSend s' (Publish p))]) ++ after) by (unfold acts; rewrite <- app_assoc; reflexivity).
    rewrite Es in F, L. rewrite Ea, Ek, Er, Eo in *. split; [|intros P' W].
    + apply (accepts_lower gd _ _ _ _ D F L); [|exact A1]. intros Ft. rewrite <- Ea, <- Ek in *. apply event_good; assumption.
    + apply (accepts_lower gd _ _ _ _ D F L); [|exact (A2 W (conj G2 P'))]. intros [G|G]; [exact G|contradiction].
Qed.

(** ** Calls *)
Lemma source_puts gd acts P a f x u o : Forall (fitting gd) acts -> acts = P ++ a :: f ->
  (source gd (ASend x u) (fst (hrun P)) o a \/ source gd (APut x u) (fst (hrun P)) o a) -> puts_at acts (length P) x u.
Proof.
  intros F E H. assert (EP : firstn (length P) acts = P) by (rewrite E, firstn_app, Nat.sub_diag, firstn_all; cbn [firstn]; apply app_nil_r).
  assert (Ea : nth_error acts (length P) = Some a) by (rewrite E, nth_error_app2, Nat.sub_diag by lia; reflexivity).
  unfold puts_at. rewrite EP, Ea. destruct H as [(m0 & cl & b & -> & -> & Gs & _ & G & Sb)|(cl & b & G & Db & H)].
  - exists cl, b. split; [exact G|]. split; [|right; exists m0; auto]. rewrite E in F. destruct (fitting_app _ _ _ F) as [FP FQ]. inversion FQ as [|? ? Fm _]; subst.
    assert (S := halike_get gd x _ _ (proj1 (hsim_run gd P FP))). rewrite G in S. destruct (zget x (nt_clients _)); [|contradiction]. unfold hlike in S. rewrite Gs in S. destruct S as (Hc & _).
    destruct (good_wire _ _ Hc (sendable_normalise m0 (Fm Gs))) as (w & Sw & Dw). assert (S' : serialize (bc_codec cl) m0 = Ok w) by (unfold serialize in *; rewrite marshal_normalise in Sw; exact Sw).
    unfold send_message in Sb. destruct (send_track (bc_session cl) m0) as [se' [t|e]]; cbn in Sb; [|discriminate]. rewrite S' in Sb. injection Sb as <-. exact Dw.
  - exists cl, b. split; [exact G|]. split; [exact Db|]. destruct H as [->|(_ & m0 & -> & Sb)]; [left; reflexivity|right; exists m0; auto].
Qed.
Lemma has_sent_low gd acts P Q x u : Forall (fitting gd) acts -> acts = P ++ Q -> has_sent (low gd (fst (hrun P)) (at_end (lower gd P)) Q) x u ->
  exists k, (length P <= k < length acts)%nat /\ puts_at acts k x u.
Proof.
  intros F E H. assert (K : exists b a f o, Q = b ++ a :: f /\ (source gd (ASend x u) (fst (hrun (P ++ b))) o a \/ source gd (APut x u) (fst (hrun (P ++ b))) o a)).
  { destruct H as [H|H]; apply in_low in H; destruct H as (b & a & f & -> & H); apply in_low1 in H; rewrite hsteps_from in H; eauto 10. }
  destruct K as (b & a & f & o & -> & K). exists (length (P ++ b)). split; [rewrite E, !app_length; cbn [length]; lia|].
  apply (source_puts gd acts (P ++ b) a f x u o F); [rewrite E, <- app_assoc; reflexivity|exact K].
Qed.
Lemma puts_at_app P Q k x u : (k < length P)%nat -> puts_at P k x u -> puts_at (P ++ Q) k x u.
Proof.
  intros Hk (cl & b & G & D & H). exists cl, b. rewrite firstn_app. replace (k - length P)%nat with O by lia. cbn [firstn]. rewrite app_nil_r, nth_error_app1 by exact Hk. auto.
Qed.

Definition h_invoked (n : bnet) (s j : Z) : Prop := exists cl, zget s (bn_clients n) = Some cl /\ smem j (invocation_requests (bc_session cl)) = true.
Lemma post_session s posts d cl : zget s d = Some cl -> exists cl', zget s (bpost posts d) = Some cl' /\ bc_session cl' = bc_session cl.
Proof.
  induction d as [|[k v] d IH]; [discriminate|]. cbn. destruct (s =? k); [|exact IH]. intros [= ->]. eexists. split; reflexivity.
Qed.
Lemma zget_zdel_other {V} k (d : list (Z * V)) k' : k' <> k -> zget k' (zdel k d) = zget k' d.
Proof.
  intros N. induction d as [|[a v] d IH]; [reflexivity|]. cbn. destruct (Z.eqb_spec k a) as [<-|]; cbn.
  - destruct (Z.eqb_spec k' k); [contradiction|reflexivity].
  - destruct (k' =? a); [reflexivity|exact IH].
Qed.
Lemma h_invoked_step gd Gd hf s j P a : Forall (fitting gd) (P ++ [a]) -> gd s = true -> allowed Gd hf (lower gd P) -> Gd s ->
  h_invoked (fst (hrun P)) s j -> a <> HAct (WLeave s) ->
  (forall m0 cl w, a = HAct (WSend s m0) -> zget s (bn_clients (fst (hrun P))) = Some cl -> snd (send_message (bc_codec cl) (bc_session cl) m0) = Ok w -> replies j m0 = false) ->
  h_invoked (fst (hstep (fst (hrun P)) a)) s j.
Proof.
  intros F Gs A Hg (cl & G & M) Nl Hs. destruct (fitting_app _ _ _ F) as [FP Fa]. inversion Fa as [|? ? Fa1 _]; subst. assert (S := hsim_run gd P FP).
  set (n := fst (hrun P)) in *. destruct a as [[det c|s0|s0 m0|s0|s0]|s0 b]; cbn [hstep bytes_step].
  - (* joining again is refused *)
    destruct (b_add_session (bn_broker n) det) as [b' rb] eqn:Eb. destruct (d_add_session (bn_dealer n) det) as [d' rd] eqn:Ed.
    destruct rb as [|]; [|exists cl; auto]. destruct rd as [|]; [|exists cl; auto]. cbn [fst]. unfold h_invoked. cbn [bn_clients]. rewrite zget_zset.
    destruct (Z.eqb_spec s (pyint_Z (det_session det))) as [Es|]; [|exists cl; auto]. exfalso.
    destruct S as (Lk & Sb & Sd & _). assert (Go := halike_get gd s _ _ Lk). rewrite G in Go. destruct (zget s (nt_clients (at_end (lower gd P)))) as [c0|] eqn:Eo; [|contradiction].
    unfold hlike in Go. rewrite Gs in Go. destruct Go as (_ & Ss & _). apply sim_elim in Ss. destruct Ss as (C & I & Ei & _ & (_ & _ & BI)).
    assert (J := NInv_run Gd hf _ A). pose proof (client_stays Gd hf _ _ (AJoin det) s c0 J Eo ltac:(discriminate)) as Y.
    rewrite Sb in Eb. rewrite Sd in Ed. cbn [nstep] in Y. unfold at_end in *. rewrite Eb, Ed in Y. cbn [fst nt_clients] in Y. rewrite zget_zset, Es, Z.eqb_refl in Y.
    cbn [client_step] in Y.
    injection Y as Y. rewrite <- Y in Ei. apply (f_equal invocation_requests) in Ei. cbn in Ei. apply BI in M. subst I. discriminate M.
  - destruct (b_remove_session (bn_broker n) s0) as [b' rb]. destruct (d_remove_session (bn_dealer n) s0) as [d' rd]. destruct rb; [|exists cl; auto]. destruct rd; [|exists cl; auto].
    exists cl. cbn [fst bn_clients]. rewrite zget_zdel_other by congruence. auto.
  - destruct (zget s0 (bn_clients n)) as [cl0|] eqn:G0; [|exists cl; auto]. destruct (send_message (bc_codec cl0) (bc_session cl0) m0) as [c' r] eqn:E. cbn [fst]. unfold h_invoked. cbn [bn_clients]. rewrite zget_zset.
    destruct (Z.eqb_spec s s0) as [<-|]; [|exists cl; auto]. rewrite G in G0. injection G0 as <-. eexists. split; [reflexivity|]. cbn [bc_session].
    specialize (Hs m0 cl). unfold send_message in E, Hs. destruct (send_track (bc_session cl) m0) as [se [t|e]] eqn:Et; cbn in E.
    + injection E as <- <-. destruct S as (Lk & _). assert (Go := halike_get gd s _ _ Lk). rewrite G in Go. destruct (zget s (nt_clients _)); [|contradiction]. unfold hlike in Go. rewrite Gs in Go. destruct Go as (Hc & _).
      destruct (good_wire _ _ Hc (sendable_normalise m0 (Fa1 Gs))) as (w & Sw & _). assert (S' : serialize (bc_codec cl) m0 = Ok w) by (unfold serialize in *; rewrite marshal_normalise in Sw; exact Sw).
      apply (invoked_stays _ _ _ _ _ Et); [|exact M]. apply (Hs w eq_refl G). exact S'.
    + injection E as <- <-. assert (se = bc_session cl); [|subst; exact M]. clear - Et. destruct m0; cbn [send_track] in Et; try (injection Et as <- _; reflexivity); try discriminate;
        repeat match type of Et with context [if ?b then _ else _] => destruct b end; try discriminate; injection Et as <- _; reflexivity.
  - destruct (zget s0 (bn_clients n)) as [[c se [|b up] down]|] eqn:G0; try (exists cl; exact (conj G M)).
    destruct (match deserialize c b with Ok m => _ | Raise _ => _ end) as [[b' d'] posts]. cbn [fst]. unfold h_invoked. cbn [bn_clients].
    assert (X : exists cl1, zget s (zset s0 (mkBClient c se up down) (bn_clients n)) = Some cl1 /\ bc_session cl1 = bc_session cl).
    { rewrite zget_zset. destruct (Z.eqb_spec s s0) as [<-|]; [|exists cl; auto]. rewrite G in G0. injection G0 as ->. eexists. split; reflexivity. }
    destruct X as (cl1 & X1 & X2). destruct (post_session s posts _ _ X1) as (cl' & Y1 & Y2). exists cl'. split; [exact Y1|]. rewrite Y2, X2. exact M.
  - destruct (zget s0 (bn_clients n)) as [[c se up [|b down]]|] eqn:G0; try (exists cl; exact (conj G M)).
    destruct (receive c se b) as [se' r] eqn:E. cbn [fst]. unfold h_invoked. cbn [bn_clients]. rewrite zget_zset. destruct (Z.eqb_spec s s0) as [<-|]; [|exists cl; auto].
    rewrite G in G0. injection G0 as ->. cbn [bc_session] in M. eexists. split; [reflexivity|]. cbn [bc_session].
    unfold receive in E. destruct (deserialize c b) as [m|e]; [|injection E as <- _; exact M].
    pose proof (invoked_received se m j M) as Y. destruct (receive_message se m). injection E as <- _. exact Y.
  - destruct (zget s0 (bn_clients n)) as [cl0|] eqn:G0; [|exists cl; auto]. cbn [fst]. unfold h_invoked. cbn [bn_clients]. rewrite zget_zset.
    destruct (Z.eqb_spec s s0) as [<-|]; [|exists cl; auto]. rewrite G in G0. injection G0 as <-. eexists. split; [reflexivity|]. exact M.
Qed.
Lemma h_invoked_later gd (Gd : Z -> Prop) hf s j P : gd s = true -> Gd s -> h_invoked (fst (hrun P)) s j -> forall Q, Forall (fitting gd) (P ++ Q) -> allowed Gd hf (lower gd (P ++ Q)) ->
  ~ In (HAct (WLeave s)) Q ->
  (forall b m0 f cl w, Q = b ++ HAct (WSend s m0) :: f -> zget s (bn_clients (fst (hrun (P ++ b)))) = Some cl -> snd (send_message (bc_codec cl) (bc_session cl) m0) = Ok w -> replies j m0 = false) ->
  h_invoked (fst (hrun (P ++ Q))) s j.
Proof.
  intros Gs Hg H. induction Q as [|a Q IH] using rev_ind; intros F A Nl Hs; [rewrite app_nil_r; exact H|].
  rewrite app_assoc in *. rewrite lower_app in A. apply allowed_app in A.
  assert (H1 : h_invoked (fst (hrun (P ++ Q))) s j).
  { apply IH; [apply Forall_app in F; apply F|exact A|intros K; apply Nl, in_or_app; left; exact K|]. intros b m0 f cl w -> G Sw. apply (Hs b m0 (f ++ [a]) cl w); [rewrite <- app_assoc; reflexivity|exact G|exact Sw]. }
  rewrite <- hsteps_from. cbn [hsteps fold_left]. apply (h_invoked_step gd Gd hf s j (P ++ Q) a F Gs A Hg H1).
  - intros ->. apply Nl, in_elt.
  - intros m0 cl w -> G Sw. exact (Hs Q m0 [] cl w eq_refl G Sw).
Qed.

Theorem h_call_answered before s q i s' c after : let acts := before ++ HAct (WSend s' (Call c)) :: after in
  honest s acts -> honest s' acts -> h_routings acts <= 2 ^ 53 -> h_disciplined Rpc s acts -> h_disciplined Rpc s' acts ->
  h_holding s (Register q) i before -> ca_procedure c = rg_procedure q -> bytes_connected s' (fst (hrun before)) = true ->
  ~ In (HAct (WLeave s')) after -> h_keeps_on s i (Register q) after -> bytes_idle s' (fst (hrun acts)) -> bytes_idle s (fst (hrun acts)) ->
  exists iv a1 a2, let X := before ++ HAct (WSend s' (Call c)) :: a1 in
    after = a1 ++ HAct (WDeliver s) :: a2 /\
    snd (hstep (fst (hrun X)) (HAct (WDeliver s))) = WDelivered (Ok (Invocation iv)) (Ok (Invocation iv)) /\
    iv_registration iv = PyInt i /\ iv_args iv = norm_args (ca_args c) (ca_kwargs c) /\ iv_kwargs iv = ca_kwargs c /\
    forall rest c1 u c2, let all := acts ++ rest in
      honest s all -> honest s' all -> h_routings all <= 2 ^ 53 -> h_disciplined Rpc s all -> h_disciplined Rpc s' all ->
      a2 ++ rest = c1 ++ HAct (WSend s u) :: c2 -> replies (pyint_Z (iv_request iv)) u = true ->
      h_only_reply s (pyint_Z (iv_request iv)) (length (X ++ HAct (WDeliver s) :: c1)) all ->
      ~ In (HAct (WLeave s)) rest -> ~ In (HAct (WLeave s')) rest -> bytes_idle s (fst (hrun all)) -> bytes_idle s' (fst (hrun all)) ->
      h_accepts (X ++ HAct (WDeliver s) :: c1 ++ [HAct (WSend s u)]) s' (normalise (reply_to c u)) c2.
Proof.
  intros acts H H' R P P' Hh Ht Hc Hl Hk Hi' Hi. set (gd := two s s'). assert (F := two_fitting _ _ _ H H' : Forall (fitting gd) acts).
  assert (G1 : gd s = true) by apply two_fst. assert (G2 : gd s' = true) by apply two_snd. set (Gd := fun x => x = s \/ x = s').
  assert (Al : forall l o D, honest s l -> honest s' l -> h_routings l <= 2 ^ 53 -> h_disciplined Rpc s l -> h_disciplined Rpc s' l -> lostly o D -> allowed Gd Rpc (lower gd l ++ D)).
  { intros l o D X1 X2 X3 X4 X5 X6. apply (allowed_lower gd Gd Rpc l o D (two_fitting _ _ _ X1 X2) X3 X6). intros x [->| ->]; auto. }
  destruct (drain_all gd _ [s; s'] _ (hsim_run gd acts F)) as (D & I & L & _); [intros x [<-|[<-|[]]]; split; assumption|].
  assert (I1 := I s (or_introl eq_refl)). assert (I2 := I s' (or_intror (or_introl eq_refl))). clear I. rewrite steps_from in I1, I2.
  assert (A := Al acts _ D H H' R P P' L).
  destruct (lower_send gd before s' (Call c) after F G2 Hc Logic.I) as [Ex El]. fold acts in El. destruct (norm_call c) as (c' & E & Ep & Er & Ea & Ek). rewrite E in *.
  destruct (fitting_app _ _ _ F) as [F1 F2]. assert (Gc : good (Call c')).
  { inversion F2 as [|? ? Fp _]; subst. rewrite <- E. apply sendable_normalise. exact (Fp G2). }
  set (B := before ++ [HAct (WSend s' (Call c))]) in *.
  assert (EA : lower gd acts ++ D = lower gd before ++ ASend s' (Call c') :: (low gd (fst (hrun B)) (at_end (lower gd before ++ [ASend s' (Call c')])) after ++ D))
    by (rewrite El, <- app_assoc; reflexivity).
  rewrite EA in A, I1, I2.
  assert (EB : acts = B ++ after) by (unfold acts, B; rewrite <- app_assoc; reflexivity).
  destruct (call_round_trip_then Gd (lower gd before) s q i s' c' _ (or_introl eq_refl) (or_intror eq_refl) A) as (j & o1 & o2 & Eq & Dl & Rest); auto.
  { apply (holding_lower gd s (Register q) i before F1 G1 Logic.I Hh). }
  { congruence. }
  { rewrite <- (connected_lower gd s' _ _ (hsim_run gd before F1)). exact Hc. }
  { intros K. apply in_app_or in K. destruct K as [K|K]; [revert K; apply no_leave, Hl|destruct (lostly_in _ _ _ L K); discriminate]. }
  { apply (keeps_lower gd s i (Register q) after _ _ D _ Hk L). }
  cbv zeta in Rest, Dl.
  assert (FB : Forall (fitting gd) (B ++ after)) by (rewrite <- EB; exact F). destruct (fitting_app _ _ _ FB) as [FB1 FB2].
  assert (SB := hsim_run gd B FB1). rewrite <- Ex in Eq.
  assert (EO : lower gd before ++ ASend s' (Call c') :: o1 = lower gd B ++ o1) by (rewrite Ex, <- app_assoc; reflexivity). rewrite EO in Dl, Rest.
  rewrite <- steps_from in Dl.
  assert (K : exists e1 e2 k, after = e1 ++ HAct (WDeliver s) :: e2 /\ snd (hstep (fst (hrun (B ++ e1))) (HAct (WDeliver s))) = WDelivered (Ok (invocation_for c' j i)) (Ok (invocation_for c' j i)) /\
    lower gd (B ++ e1) ++ repeat (ADeliver s) k = lower gd B ++ o1 /\ low1 gd (fst (hrun (B ++ e1))) (at_end (lower gd (B ++ e1))) (HAct (WDeliver s)) = repeat (ADeliver s) k ++ [ADeliver s]).
  { apply split_app in Eq. destruct Eq as [(l2 & Eq & _)|(P2 & -> & Eq)].
    - destruct (low_deliver gd s _ _ _ _ _ _ _ SB FB2 Eq Dl) as [[X1 X2]|(e1 & e2 & d & r & k & -> & Eh & (M0 & M1 & M2 & M3 & _) & -> & E1 & _)].
      { destruct (X2 (invocation_good c' j i Gc X1)). }
      exists e1, e2, k. rewrite hsteps_from in Eh. rewrite hsteps_from, steps_from, <- lower_app in E1. split; [reflexivity|]. split; [|split; [rewrite lower_app, <- app_assoc; reflexivity|exact E1]].
      assert (d = Ok (invocation_for c' j i)) by (apply M1, invocation_good; assumption). subst d. rewrite (M3 eq_refl _ eq_refl) in Eh. exact Eh.
    - destruct (L _ _ _ Eq) as (s0 & [= <-] & m & r & Em & Fm & Ng). rewrite EB, lower_app, steps_from, <- app_assoc in Em. rewrite steps_from in Dl. rewrite Dl in Em. injection Em as <- _.
      destruct (Ng (invocation_good c' j i Gc Fm)). }
  destruct K as (e1 & e2 & k & -> & Eh & EX & E1). set (X := before ++ HAct (WSend s' (Call c)) :: e1).
  assert (EBX : B ++ e1 = X) by (unfold B, X; rewrite <- app_assoc; reflexivity). rewrite EBX in *.
  unfold invocation_for in Eh. eexists _, e1, e2. cbv zeta. fold X. split; [reflexivity|]. split; [exact Eh|]. split; [reflexivity|]. split; [exact Ea|]. split; [exact Ek|]. cbn [iv_request pyint_Z].
  intros rest c1 u c2 Ha Ha' Ra Pa Pa' Eu Hu Ho Hl1 Hl2 Hi1 Hi2. rewrite <- EX in Rest. set (all := acts ++ rest) in *.
  set (XX := X ++ HAct (WDeliver s) :: c1) in *. assert (EXX : XX = (X ++ [HAct (WDeliver s)]) ++ c1) by (unfold XX; rewrite <- app_assoc; reflexivity).
  assert (Eall : all = XX ++ HAct (WSend s u) :: c2).
  { unfold all, acts, XX, X. repeat (rewrite <- app_assoc; cbn [app]). rewrite Eu. reflexivity. }
  assert (FA := two_fitting _ _ _ Ha Ha' : Forall (fitting gd) all).
  assert (Fall : Forall (fitting gd) (XX ++ HAct (WSend s u) :: c2)) by (rewrite <- Eall; exact FA).
  destruct (fitting_app _ _ _ Fall) as [FX FU]. inversion FU as [|? ? Fu FC]; subst x l. specialize (Fu G1).
  destruct (drain_all gd _ [s; s'] _ (hsim_run gd all FA)) as (D2 & J & L2 & _); [intros x [<-|[<-|[]]]; split; assumption|].
  assert (J1 := J s (or_introl eq_refl)). assert (J2 := J s' (or_intror (or_introl eq_refl))). clear J. rewrite steps_from in J1, J2.
  assert (A2 := Al all _ D2 Ha Ha' Ra Pa Pa' L2).
  assert (Alw : allowed Gd Rpc (lower gd XX)) by (rewrite Eall, lower_app, <- app_assoc in A2; exact (allowed_app _ _ _ _ A2)).
  (* nobody leaves in between *)
  assert (Lv : forall x, (x = s \/ x = s') -> ~ In (HAct (WLeave x)) (c1 ++ HAct (WSend s u) :: c2)).
  { intros x Hx Y. rewrite <- Eu in Y. apply in_app_or in Y. destruct Y as [Y|Y].
    - assert (Y' : In (HAct (WLeave x)) (e1 ++ HAct (WDeliver s) :: e2)) by (apply in_or_app; right; right; exact Y). destruct Hx; subst x; [exact (proj1 Hk Y')|exact (Hl Y')].
    - destruct Hx; subst x; contradiction. }
  assert (Lv1 : forall x, (x = s \/ x = s') -> ~ In (HAct (WLeave x)) c1) by (intros x Hx Y; apply (Lv x Hx), in_or_app; left; exact Y).
  assert (Lv2 : forall x, (x = s \/ x = s') -> ~ In (HAct (WLeave x)) c2) by (intros x Hx Y; apply (Lv x Hx), in_or_app; right; right; exact Y).
  (* the callee still knows the invocation *)
  assert (V0 : h_invoked (fst (hrun (X ++ [HAct (WDeliver s)]))) s j).
  { rewrite <- hsteps_from. cbn [hsteps fold_left]. clear -Eh. revert Eh. cbn [hstep bytes_step]. destruct (zget s (bn_clients (fst (hrun X)))) as [[c0 se up [|b down]]|]; try discriminate.
    unfold receive. destruct (deserialize c0 b) as [m|e]; [|discriminate]. destruct (receive_message se m) as [se' r] eqn:Er. cbn [snd fst]. intros [= -> ->].
    eexists. cbn [bn_clients]. rewrite zget_zset, Z.eqb_refl. split; [reflexivity|]. cbn [bc_session]. cbn [receive_message] in Er. destruct (smem _ _); [|discriminate]. injection Er as <-.
    cbn [invocation_requests set_invocation_requests iv_request pyint_Z]. unfold sadd. destruct (smem j (invocation_requests se)) eqn:M; [exact M|].
    unfold smem. rewrite existsb_app. cbn [existsb]. rewrite Z.eqb_refl. apply orb_true_r. }
  assert (V : h_invoked (fst (hrun XX)) s j).
  { rewrite EXX in *. apply (h_invoked_later gd Gd Rpc s j _ G1 (or_introl eq_refl) V0 c1 FX Alw (Lv1 s (or_introl eq_refl))).
    intros b m0 f cl w -> G Sw. assert (PA : puts_at all (length ((X ++ [HAct (WDeliver s)]) ++ b)) s (normalise m0)).
    { apply (source_puts gd all _ (HAct (WSend s m0)) (f ++ HAct (WSend s u) :: c2) s (normalise m0) (at_end (lower gd ((X ++ [HAct (WDeliver s)]) ++ b))) FA).
      - rewrite Eall. repeat (rewrite <- app_assoc; cbn [app]). reflexivity.
      - left. exists m0, cl, w. split; [reflexivity|]. split; [reflexivity|]. split; [exact G1|]. split; [|auto].
        cbn [low1]. rewrite G, Sw, G1. reflexivity. }
    assert (N := Ho _ _ _ PA ltac:(rewrite !app_length; cbn [length]; lia)). rewrite <- (replies_normalise j m0). destruct (normalise m0); try exact N. cbn [may_end] in N. rewrite Z.eqb_refl in N. exact N. }
  (* so the reply is sent *)
  assert (El2 : low1 gd (fst (hrun XX)) (at_end (lower gd XX)) (HAct (WSend s u)) = [ASend s (normalise u)]).
  { destruct V as (cl & G & M). cbn [low1]. rewrite G, G1. assert (S0 := halike_get gd s _ _ (proj1 (hsim_run gd XX FX))). rewrite G in S0.
    destruct (zget s (nt_clients _)); [|contradiction]. unfold hlike in S0. rewrite G1 in S0. destruct S0 as (Hcd & _).
    destruct (good_wire _ _ Hcd (sendable_normalise u Fu)) as (w & Sw & _). assert (S' : serialize (bc_codec cl) u = Ok w) by (unfold serialize in *; rewrite marshal_normalise in Sw; exact Sw).
    unfold send_message. destruct u; try discriminate Hu; cbn [send_track replies] in *.
    - apply andb_true_iff in Hu. destruct Hu as [Hu _]. change 68 with T_INVOCATION in Hu. rewrite Hu. cbn. rewrite S'. reflexivity.
    - apply Z.eqb_eq in Hu. rewrite Hu, M. cbn. rewrite S'. reflexivity. }
  set (C1 := low gd (fst (hrun (X ++ [HAct (WDeliver s)]))) (at_end (lower gd (X ++ [HAct (WDeliver s)]))) c1).
  assert (LX : lower gd XX = (lower gd X ++ repeat (ADeliver s) k) ++ ADeliver s :: C1).
  { rewrite EXX, lower_app. fold C1. rewrite lower_app. cbn [HostileSim.low]. rewrite app_nil_r, E1, <- !app_assoc. reflexivity. }
  set (Y := XX ++ [HAct (WSend s u)]).
  assert (LY : lower gd Y = lower gd XX ++ [ASend s (normalise u)]) by (unfold Y; rewrite lower_app; cbn [HostileSim.low]; rewrite app_nil_r, El2; reflexivity).
  set (C2 := low gd (fst (hrun Y)) (at_end (lower gd Y)) c2).
  assert (EY : all = Y ++ c2) by (rewrite Eall; unfold Y; rewrite <- app_assoc; reflexivity).
  assert (LA : lower gd all ++ D2 = (lower gd X ++ repeat (ADeliver s) k) ++ ADeliver s :: C1 ++ ASend s (normalise u) :: (C2 ++ D2)).
  { rewrite EY, lower_app. fold C2. rewrite LY, LX. repeat (rewrite <- app_assoc; cbn [app]). reflexivity. }
  rewrite LA in A2, J1, J2.
  assert (Ac : accepts ((lower gd X ++ repeat (ADeliver s) k) ++ ADeliver s :: C1 ++ [ASend s (normalise u)]) s' (reply_to c' (normalise u)) (C2 ++ D2)).
  { assert (Lw : forall x, (x = s \/ x = s') -> ~ In (ALeave x) (C1 ++ C2 ++ D2)).
    { intros x Hx W. apply in_app_or in W. destruct W as [W|W]; [revert W; apply no_leave, Lv1, Hx|]. apply in_app_or in W. destruct W as [W|W]; [revert W; apply no_leave, Lv2, Hx|]. destruct (lostly_in _ _ _ L2 W); discriminate. }
    apply Rest; [exact A2|rewrite replies_normalise; exact Hu| |apply Lw; left; reflexivity|apply Lw; right; reflexivity|exact J1|exact J2].
    intros x v Hv. assert (Hv' : has_sent (lower gd XX) x v \/ has_sent C2 x v).
    { assert (Z0 : forall a, In a ((lower gd X ++ repeat (ADeliver s) k) ++ ADeliver s :: C1 ++ C2 ++ D2) -> In a (lower gd XX) \/ In a C2 \/ In a D2).
      { intros a W. rewrite LX. apply in_app_or in W. destruct W as [W|[W|W]]; [left; apply in_or_app; left; exact W|left; apply in_or_app; right; left; exact W|].
        apply in_app_or in W. destruct W as [W|W]; [left; apply in_or_app; right; right; exact W|right; apply in_app_or, W]. }
      destruct Hv as [W|W]; apply Z0 in W; destruct W as [W|[W|W]]; try (destruct (lostly_in _ _ _ L2 W); discriminate); [left; left|right; left|left; right|right; right]; exact W. }
    destruct Hv' as [W|W].
    - destruct (has_sent_low gd XX [] XX x v FX eq_refl W) as (k0 & Hk0 & PA). apply (puts_at_app XX (HAct (WSend s u) :: c2)) in PA; [|lia]. rewrite <- Eall in PA. apply (Ho _ _ _ PA). lia.
    - destruct (has_sent_low gd all Y c2 x v FA EY W) as (k0 & Hk0 & PA). apply (Ho _ _ _ PA). unfold Y in Hk0. rewrite app_length in Hk0. cbn [length] in Hk0. lia. }
  assert (EYX : X ++ HAct (WDeliver s) :: c1 ++ [HAct (WSend s u)] = Y) by (unfold Y, XX; rewrite <- app_assoc; reflexivity). rewrite EYX.
  rewrite EY in FA, L2. rewrite <- (reply_normalise c c' u E). apply (accepts_lower gd Y s' _ c2 D2 FA L2).
  - intros _. apply (reply_good c' (normalise u) j Gc (sendable_normalise u Fu)). rewrite replies_normalise. exact Hu.
  - fold C2. rewrite LY, LX. rewrite <- app_assoc. exact Ac.
Qed.
