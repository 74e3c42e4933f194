(** * ByteFlowFacts: what is sent arrives, in order, over links that carry bytes. *)
From Coq Require Import String Ascii List ZArith Bool Lia.
From Verif Require Import PyBase Messages IdGen Serializer Codecs Joiner Session Broker Dealer SpecDealer Network SpecNetwork SpecOrder.
From Verif Require Import SpecSchema SpecCodec NetworkInv NetworkFlow NetworkDelivery NetworkOnce NetworkOrder.
From Verif Require Import ByteNetwork SpecByteNetwork ByteNetworkFacts SpecByteFlow.
Import ListNotations.
Local Open Scope string_scope.
Local Open Scope Z_scope.
Local Open Scope list_scope.

Lemma usable_app a b : Forall usable (a ++ b) -> Forall usable a /\ Forall usable b.
Proof. apply Forall_app. Qed.

(** A delivery after [before]. *)
Lemma deliver_bytes before s : Forall usable before ->
  same_out (snd (nstep (fst (nrun (map erase before))) (ADeliver s))) (snd (bytes_step (fst (bytes_run before)) (WDeliver s))).
Proof. intros U. destruct (sim_run before U) as [S _]. exact (proj2 (sim_step _ _ (WDeliver s) S Logic.I)). Qed.
Lemma deliver_ok before s x r : Forall usable before ->
  snd (bytes_step (fst (bytes_run before)) (WDeliver s)) = WDelivered (Ok x) r <->
  snd (nstep (fst (nrun (map erase before))) (ADeliver s)) = Delivered x r.
Proof.
  intros U. pose proof (deliver_bytes before s U) as H. destruct (snd (nstep _ _)) as [m r1|], (snd (bytes_step _ _)) as [d r2|]; cbn in H; try contradiction.
  - destruct H as [-> ->]. split; intros [= -> ->]; reflexivity.
  - split; discriminate.
Qed.

Lemma erase_split a2 b1 s b2 : map erase a2 = b1 ++ ADeliver s :: b2 -> exists c1 c2, a2 = c1 ++ WDeliver s :: c2 /\ map erase c1 = b1 /\ map erase c2 = b2.
Proof.
  intros E. apply map_eq_app in E. destruct E as (c1 & r & -> & E1 & E). apply map_eq_cons in E. destruct E as (x & c2 & -> & E2 & E3).
  destruct x; try discriminate. injection E2 as ->. exists c1, c2. auto.
Qed.
Lemma accepts_bytes a1 s x a2 : Forall usable (a1 ++ a2) -> accepts (map erase a1) s x (map erase a2) -> bytes_accepts a1 s x a2.
Proof.
  intros U (b1 & b2 & E & D). apply erase_split in E. destruct E as (c1 & c2 & -> & <- & <-). exists c1, c2. split; [reflexivity|].
  apply deliver_ok; [rewrite app_assoc in U; apply usable_app in U; apply U|]. rewrite map_app. exact D.
Qed.
Lemma receives_bytes a1 s x a2 : Forall usable (a1 ++ a2) -> bytes_receives a1 s x a2 -> receives (map erase a1) s x (map erase a2).
Proof.
  intros U (b1 & b2 & r & -> & D). exists (map erase b1), (map erase b2), r. split; [rewrite map_app; reflexivity|].
  apply deliver_ok in D; [|rewrite app_assoc in U; apply usable_app in U; apply U]. rewrite map_app in D. exact D.
Qed.
Lemma ends_normalise i m u : ends i (normalise m) (normalise u) = ends i m u.
Proof. destruct m, u; reflexivity. Qed.
Lemma ends_normalise1 i m u : ends i (normalise m) u = ends i m u.
Proof. destruct m; reflexivity. Qed.
Lemma grants_normalise m x : grants (normalise m) x = grants m x.
Proof. destruct m; reflexivity. Qed.
Lemma replies_normalise j u : replies j (normalise u) = replies j u.
Proof. destruct u; reflexivity. Qed.
Lemma keeps_bytes s i m acts : bytes_keeps_on s i m acts -> keeps_on s i (normalise m) (map erase acts).
Proof.
  intros [A B]. split; [apply leave_bytes, A|]. intros u Hu. apply in_map_iff in Hu. destruct Hu as (a & E & Hu). apply erase_send in E.
  destruct E as (u0 & -> & ->). rewrite ends_normalise. exact (B _ Hu).
Qed.
Lemma holding_bytes s m i acts : Forall usable acts -> bytes_holding s m i acts -> holding s (normalise m) i (map erase acts).
Proof.
  intros U (a1 & a2 & x & -> & C & K & R & G). exists (map erase a1), (map erase a2), x. rewrite map_app. split; [reflexivity|].
  split; [rewrite <- connected_bytes; [exact C|apply usable_app in U; apply U]|]. split; [apply keeps_bytes, K|]. split; [|rewrite grants_normalise; exact G].
  change [ASend s (normalise m)] with (map erase [WSend s m]). rewrite <- map_app. apply receives_bytes; [|exact R]. rewrite <- app_assoc. exact U.
Qed.
Lemma no_reply_bytes s j acts : bytes_no_reply s j acts -> no_reply s j (map erase acts).
Proof.
  intros H x u Hu. apply has_sent_bytes in Hu. destruct Hu as (u0 & Hu & ->).
  specialize (H _ _ Hu). destruct u0; exact H.
Qed.
Lemma reply_normalise c c' u : normalise (Call c) = Call c' -> reply_to c' (normalise u) = normalise (reply_to c u).
Proof. intros [= <-]. destruct u; reflexivity. Qed.

Lemma inbox_bytes s acts : Forall usable acts -> bytes_inbox s (snd (bytes_run acts)) = inbox s (snd (nrun (map erase acts))).
Proof.
  intros U. destruct (sim_run acts U) as [_ T]. induction T as [|[a o] [a' o'] t t' [A B] T IH]; [reflexivity|]. cbn [fst snd] in *.
  unfold bytes_inbox, inbox in *. cbn [flat_map]. rewrite IH. f_equal. subst a. destruct a'; cbn [erase]; try reflexivity; try (destruct o; reflexivity).
  destruct o, o'; cbn in B; try contradiction; [|reflexivity]. destruct B as [-> _]. reflexivity.
Qed.

Definition bytes_quiet hf acts := Forall usable acts /\ bytes_routings acts <= 2 ^ 53 /\ bytes_no_reuse hf acts /\
  (hf = Rpc -> bytes_fresh_sessions acts /\ bytes_no_progress acts).
Lemma allowed_bytes hf acts : bytes_quiet hf acts -> allowed everyone hf (map erase acts).
Proof.
  intros (U & L & R & P). apply allowed_everyone; [rewrite routings_bytes; exact L|apply no_reuse_bytes, R|]. intros ->. destruct (P eq_refl) as [P1 P2].
  split; [apply fresh_bytes, P1|apply progress_bytes, P2].
Qed.
Lemma norm_pub p : exists p', normalise (Publish p) = Publish p' /\ pb_topic p' = pb_topic p /\ pb_request p' = pb_request p /\ pb_options p' = pb_options p /\
  pb_args p' = norm_args (pb_args p) (pb_kwargs p) /\ pb_kwargs p' = pb_kwargs p.
Proof. eexists. split; [reflexivity|]. repeat split. Qed.

Theorem bytes_event_arrives (Gd : Z -> Prop) before s q i s' p after : let acts := before ++ WSend s' (Publish p) :: after in
  Gd s -> Forall usable acts -> allowed Gd PubSub (map erase acts) ->
  bytes_holding s (Subscribe q) i before -> pb_topic p = su_topic q -> bytes_connected s' (fst (bytes_run before)) = true ->
  ~ In (WLeave s') after -> bytes_keeps_on s i (Subscribe q) after -> bytes_idle s' (fst (bytes_run acts)) -> bytes_idle s (fst (bytes_run acts)) ->
  exists pid,
    bytes_accepts (before ++ [WSend s' (Publish p)]) s (normalise (Event (mkEvent (PyInt i) (PyInt pid) (pb_args p) (pb_kwargs p) []))) after /\
    (wants "acknowledge" (pb_options p) = true -> Gd s' ->
     bytes_accepts (before ++ [WSend s' (Publish p)]) s' (Published (mkPublished (pb_request p) (PyInt pid))) after).
Proof.
  intros acts Hg U Al H T C N K I1 I2. destruct (norm_pub p) as (p' & E & Et & Er & Eo & Ea & Ek).
  apply idle_bytes in I1; [|exact U]. apply idle_bytes in I2; [|exact U]. subst acts. assert (U' := U). rewrite map_app in *. cbn [map erase] in *. rewrite E in *.
  destruct (usable_app _ _ U) as [U1 _]. apply (holding_bytes _ _ _ _ U1) in H. rewrite (connected_bytes _ _ U1) in C. apply keeps_bytes in K. apply leave_bytes in N.
  destruct (event_arrives Gd (map erase before) s q i s' p' (map erase after) Hg Al H ltac:(congruence) C N K I1 I2) as (pid & A & B).
  exists pid. rewrite <- E in A, B. change (ASend s' (normalise (Publish p))) with (erase (WSend s' (Publish p))) in A, B.
  change [erase (WSend s' (Publish p))] with (map erase [WSend s' (Publish p)]) in A, B. rewrite <- map_app in A, B.
  assert (V : Forall usable ((before ++ [WSend s' (Publish p)]) ++ after)) by (rewrite <- app_assoc; exact U').
  split.
  - apply accepts_bytes; [exact V|]. cbn [normalise ev_args ev_kwargs ev_subscription ev_publication ev_details]. rewrite Ea, Ek in A. exact A.
  - intros W Hg'. apply accepts_bytes; [exact V|]. rewrite Er, Eo in B. exact (B W Hg').
Qed.

Lemma norm_call c : exists c', normalise (Call c) = Call c' /\ ca_procedure c' = ca_procedure c /\ ca_request c' = ca_request c /\
  ca_args c' = norm_args (ca_args c) (ca_kwargs c) /\ ca_kwargs c' = ca_kwargs c.
Proof. eexists. split; [reflexivity|]. repeat split. Qed.

Theorem bytes_call_answered (Gd : Z -> Prop) before s q i s' c after : let acts := before ++ WSend s' (Call c) :: after in
  Gd s -> Gd s' -> Forall usable acts -> allowed Gd Rpc (map erase acts) ->
  bytes_holding s (Register q) i before -> ca_procedure c = rg_procedure q -> bytes_connected s' (fst (bytes_run before)) = true ->
  ~ In (WLeave s') after -> bytes_keeps_on s i (Register q) after -> bytes_idle s' (fst (bytes_run acts)) -> bytes_idle s (fst (bytes_run acts)) ->
  exists iv a1 a2, let X := before ++ WSend s' (Call c) :: a1 in
    after = a1 ++ WDeliver s :: a2 /\
    snd (bytes_step (fst (bytes_run X)) (WDeliver s)) = WDelivered (Ok (Invocation iv)) (Ok (Invocation iv)) /\
    iv_registration iv = PyInt i /\ iv_args iv = norm_args (ca_args c) (ca_kwargs c) /\ iv_kwargs iv = ca_kwargs c /\
    forall rest c1 u c2, let all := acts ++ rest in
      Forall usable all -> allowed Gd Rpc (map erase all) ->
      a2 ++ rest = c1 ++ WSend s u :: c2 -> replies (pyint_Z (iv_request iv)) u = true ->
      bytes_no_reply s (pyint_Z (iv_request iv)) (X ++ WDeliver s :: c1 ++ c2) ->
      ~ In (WLeave s) rest -> ~ In (WLeave s') rest -> bytes_idle s (fst (bytes_run all)) -> bytes_idle s' (fst (bytes_run all)) ->
      bytes_accepts (X ++ WDeliver s :: c1 ++ [WSend s u]) s' (normalise (reply_to c u)) c2.
Proof.
  intros acts Hg Hg' U Al H T C N K I1 I2. destruct (norm_call c) as (c' & E & Ep & Er & Ea & Ek).
  apply idle_bytes in I1; [|exact U]. apply idle_bytes in I2; [|exact U]. subst acts. assert (U' := U). rewrite map_app in *. cbn [map erase] in *. rewrite E in *.
  destruct (usable_app _ _ U) as [U1 _]. apply (holding_bytes _ _ _ _ U1) in H. rewrite (connected_bytes _ _ U1) in C. apply keeps_bytes in K. apply leave_bytes in N.
  destruct (call_round_trip Gd (map erase before) s q i s' c' (map erase after) Hg Hg' Al H ltac:(congruence) C N K I1 I2) as (j & a1 & a2 & Eq & D & Rest). cbv zeta in *.
  apply erase_split in Eq. destruct Eq as (e1 & e2 & -> & <- & <-).
  assert (EX : map erase (before ++ WSend s' (Call c) :: e1) = map erase before ++ ASend s' (Call c') :: map erase e1) by (rewrite map_app; cbn [map erase]; rewrite E; reflexivity).
  eexists _, e1, e2. split; [reflexivity|]. split.
  { apply deliver_ok; [|rewrite EX; exact D]. assert (Es : before ++ WSend s' (Call c) :: e1 ++ WDeliver s :: e2 = (before ++ WSend s' (Call c) :: e1) ++ WDeliver s :: e2) by (rewrite <- app_assoc; reflexivity).
    rewrite Es in U. apply usable_app in U. apply U. }
  split; [reflexivity|]. split; [exact Ea|]. split; [exact Ek|]. cbn [iv_request pyint_Z].
  intros rest c1 u c2 Ua Al2 Eu Hu Hn Hl1 Hl2 Hi1 Hi2.
  apply idle_bytes in Hi1; [|exact Ua]. apply idle_bytes in Hi2; [|exact Ua].
  assert (EA : map erase ((before ++ WSend s' (Call c) :: e1 ++ WDeliver s :: e2) ++ rest) =
               (map erase before ++ ASend s' (Call c') :: map erase (e1 ++ WDeliver s :: e2)) ++ map erase rest).
  { rewrite !map_app. cbn [map erase]. rewrite E, !map_app. reflexivity. }
  rewrite EA in *.
  specialize (Rest (map erase rest) (map erase c1) (normalise u) (map erase c2)).
  assert (B : accepts ((map erase before ++ ASend s' (Call c') :: map erase e1) ++ ADeliver s :: map erase c1 ++ [ASend s (normalise u)]) s' (reply_to c' (normalise u)) (map erase c2)).
  { apply Rest; auto.
    - change (ASend s (normalise u)) with (erase (WSend s u)). change (erase (WSend s u) :: map erase c2) with (map erase (WSend s u :: c2)). rewrite <- !map_app, Eu. reflexivity.
    - rewrite replies_normalise. exact Hu.
    - apply no_reply_bytes in Hn. rewrite map_app, EX in Hn. cbn [map erase] in Hn. rewrite map_app in Hn. exact Hn.
    - apply leave_bytes, Hl1.
    - apply leave_bytes, Hl2. }
  apply accepts_bytes.
  - assert (X : ((before ++ WSend s' (Call c) :: e1) ++ WDeliver s :: c1 ++ [WSend s u]) ++ c2 = (before ++ WSend s' (Call c) :: e1 ++ WDeliver s :: e2) ++ rest).
    { repeat (rewrite <- app_assoc; cbn [app]). rewrite Eu. reflexivity. }
    rewrite X. exact Ua.
  - rewrite <- (reply_normalise c c' u E). rewrite map_app, EX. cbn [map erase]. rewrite map_app. exact B.
Qed.

(** ** Order *)
Lemma sent_at_bytes acts i c m : Forall usable acts -> bytes_sent_at acts i c m -> sent_at (map erase acts) i c (normalise m).
Proof.
  intros U [A B]. split; [eexists; split; [rewrite nth_error_map, A; reflexivity|left; reflexivity]|]. rewrite firstn_map, <- connected_bytes; [exact B|].
  rewrite <- (firstn_skipn i acts) in U. apply usable_app in U. apply U.
Qed.
Lemma sent_at_objects acts i c m : Forall usable acts -> sent_at (map erase acts) i c m -> exists m0, m = normalise m0 /\ bytes_sent_at acts i c m0.
Proof.
  intros U [(y & A & P) B]. rewrite nth_error_map in A. destruct (nth_error acts i) as [a|] eqn:E; [|discriminate]. injection A as <-.
  destruct P as [A|A]; [|destruct (erase_put _ _ _ A)]. apply erase_send in A. destruct A as (m0 & -> & ->).
  exists m0. split; [reflexivity|]. split; [exact E|]. rewrite firstn_map, <- connected_bytes in B; [exact B|].
  rewrite <- (firstn_skipn i acts) in U. apply usable_app in U. apply U.
Qed.
Theorem bytes_in_order acts s : Forall usable acts -> exists h, bytes_history acts s h /\ ForallOrdPairs (bytes_precedes acts) h.
Proof.
  intros U. destruct (in_order (map erase acts) s) as (h & [M C] & O). exists h. split; [split|].
  - rewrite inbox_bytes by exact U. exact M.
  - eapply Forall_impl; [|exact C]. intros p (c & m & A & B). apply sent_at_objects in A; [|exact U]. destruct A as (m0 & -> & A). eauto.
  - assert (W : forall p q, precedes (map erase acts) p q -> bytes_precedes acts p q).
    { intros p q H c m1 m2 A B. exact (H c _ _ (sent_at_bytes _ _ _ _ U A) (sent_at_bytes _ _ _ _ U B)). }
    clear M C. induction O as [|p h F O IH]; constructor; [|exact IH]. eapply Forall_impl; [|exact F]. auto.
Qed.
Lemma chunks_bytes acts : (forall c m, In (WSend c (Call m)) acts -> wants "progress" (ca_options m) = false) -> no_chunks (map erase acts).
Proof.
  intros H s c I0. apply has_sent_bytes in I0. destruct I0 as (x & I0 & E). destruct x; try discriminate. injection E as ->. exact (H _ _ I0).
Qed.
