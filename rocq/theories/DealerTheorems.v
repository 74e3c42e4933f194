(** * DealerTheorems: the lemmas behind PropsDealer. *)
From Coq Require Import String Ascii List ZArith Bool Lia Arith FinFun.
From Verif Require Import PyBase Messages IdGen IdGenFacts Joiner DictFacts SpecHistory Broker BrokerFacts Dealer SpecDealer DealerRun DealerFacts.
Import ListNotations.
Local Open Scope string_scope.
Local Open Scope Z_scope.
Local Open Scope list_scope.

Ltac start ops d h J :=
  pose proof (drun_inv ops) as J; destruct (drun ops) as [d h]; cbn [fst snd] in J.

Lemma d_outcome_of d h o : DInv d h -> exists d' r, dstep d o = (d', r) /\ danswer d o = r /\ doutcome d o d' r.
Proof.
  intros (J & _). pose proof (dstep_outcome d o J) as H. unfold danswer. destruct (dstep d o) as [d' r]. exists d', r. auto.
Qed.

Lemma holder_tget d h p : DShape d -> DTrack d h -> holder p h = None <-> tget p (d_by_procedure d) = None.
Proof. intros W T. rewrite <- (dt_held _ _ T). apply held_none. exact W. Qed.
Lemma holder_reg d h p l reg c : DShape d -> DTrack d h -> tget p (d_by_procedure d) = Some l -> dat d l = Some reg ->
  reg_registrants reg = [(c, c)] -> holder p h = Some (c, reg_id reg).
Proof. intros W T A B C. rewrite <- (dt_held _ _ T). unfold held. rewrite A, B, C. reflexivity. Qed.

(** ** Registration *)
Lemma register_ok ops s m : let (d, h) := drun ops in d_ids_issued h <= ID_MAX -> d_member s h = true ->
  (holder (rg_procedure m) h = None ->
     exists i, danswer d (DMsg s (Register m)) = DRouted (mkRouted (Registered (mkRegistered (rg_request m) (PyInt i))) s)) /\
  (holder (rg_procedure m) h <> None ->
     danswer d (DMsg s (Register m)) =
     DRouted (mkRouted (Error (mkError (PyInt 64) (rg_request m) "wamp.error.procedure_already_exists" None None [])) s)).
Proof.
  start ops d h J. intros Hmax Hm. destruct (d_outcome_of _ _ (DMsg s (Register m)) J) as (d' & r & _ & -> & H).
  destruct J as ((W & O & S) & M & C & T). specialize (T Hmax). rewrite <- M, zmem_zget in Hm.
  rewrite (holder_tget d h _ W T).
  inversion H; try subst d'; subst; try contradiction;
    repeat match goal with X : zget s _ = _ |- _ => rewrite X in Hm | X : tget _ _ = _ |- _ => rewrite X end; try discriminate;
    split; intros Q; try congruence; eauto.
Qed.

Lemma has_registration_iff ops p : let (d, h) := drun ops in d_ids_issued h <= ID_MAX ->
  (has_registration d p = true <-> holder p h <> None).
Proof.
  start ops d h J. intros Hmax. destruct J as ((W & O & S) & M & C & T). specialize (T Hmax).
  rewrite (holder_tget d h _ W T). unfold has_registration, tmem, dmem. change (@dget string nat String.eqb) with (@tget nat).
  destruct (tget p _); split; congruence.
Qed.

(** ** Calls *)
Lemma call_flags m i g : let iv := mkInvocation (PyInt i) (PyInt g) (ca_args m) (ca_kwargs m) (call_details m)
    (mkBin (bp_serializer (ca_bin m)) (bp_payload (ca_bin m)) false) in
  sget "progress" (iv_details iv) = (if wants "progress" (ca_options m) then Some (VBool true) else None) /\
  sget "receive_progress" (iv_details iv) = (if wants "receive_progress" (ca_options m) then Some (VBool true) else None).
Proof.
  cbn zeta. unfold iv_details, call_details. cbn [iv_dets iv_bin]. unfold with_serializer. cbn [bp_serializer].
  destruct (bp_serializer (ca_bin m)); destruct (wants "progress" _), (wants "receive_progress" _); split; reflexivity.
Qed.

(** The exact answer to a CALL. *)
Lemma call_answer ops s m : let (d, h) := drun ops in d_ids_issued h <= ID_MAX ->
  match holder (ca_procedure m) h with
  | None => danswer d (DMsg s (Call m)) =
      DRouted (mkRouted (Error (mkError (PyInt 48) (ca_request m) "wamp.error.no_such_procedure" None None [])) s)
  | Some (c, g) => exists i, danswer d (DMsg s (Call m)) = DRouted (mkRouted (invocation_for m i g) c) /\
      (if fresh s m h then next_id (d_idgen d) = (fst (next_id (d_idgen d)), i) else open_call s (pyint_Z (ca_request m)) h = Some i)
  end.
Proof.
  start ops d h J. intros Hmax. destruct (d_outcome_of _ _ (DMsg s (Call m)) J) as (d' & r & _ & -> & H).
  destruct J as ((W & O & S) & M & C & T). specialize (T Hmax).
  inversion H; try subst d'; subst; try contradiction.
  - match goal with X : tget _ _ = None |- _ => apply (holder_tget d h _ W T) in X; rewrite X end. reflexivity.
  - match goal with X : tget _ _ = Some ?l, Y : dat _ _ = Some ?reg, Z : reg_registrants _ = _ |- _ =>
      rewrite (holder_reg d h _ l reg c W T X Y Z) end.
    exists id. split; [reflexivity|].
    assert (F : fresh s m h = true).
    { unfold fresh. destruct (wants "progress" (ca_options m)) eqn:P; [|reflexivity]. cbn [negb orb].
      rewrite <- (dc_open _ _ C). match goal with X : true = true -> _ |- _ => rewrite X by reflexivity end. reflexivity. }
    rewrite F. match goal with X : next_id _ = _ |- _ => rewrite X end. reflexivity.
  - match goal with X : tget _ _ = Some ?l, Y : dat _ _ = Some ?reg, Z : reg_registrants _ = _ |- _ =>
      rewrite (holder_reg d h _ l reg c W T X Y Z) end.
    exists id. split; [reflexivity|].
    assert (F : fresh s m h = false).
    { unfold fresh. match goal with X : wants _ _ = true |- _ => rewrite X end. cbn [negb orb]. rewrite <- (dc_open _ _ C).
      match goal with X : zzget _ _ = Some _ |- _ => rewrite X end. reflexivity. }
    rewrite F. rewrite <- (dc_open _ _ C). assumption.
Qed.

Lemma call_routed ops s m : let (d, h) := drun ops in d_ids_issued h <= ID_MAX ->
  match holder (ca_procedure m) h with
  | None => danswer d (DMsg s (Call m)) =
      DRouted (mkRouted (Error (mkError (PyInt 48) (ca_request m) "wamp.error.no_such_procedure" None None [])) s)
  | Some (c, g) => exists iv, danswer d (DMsg s (Call m)) = DRouted (mkRouted (Invocation iv) c) /\
      iv_registration iv = PyInt g /\ iv_args iv = ca_args m /\ iv_kwargs iv = ca_kwargs m /\
      sget "progress" (iv_details iv) = (if wants "progress" (ca_options m) then Some (VBool true) else None) /\
      sget "receive_progress" (iv_details iv) = (if wants "receive_progress" (ca_options m) then Some (VBool true) else None)
  end.
Proof.
  pose proof (call_answer ops s m) as H. destruct (drun ops) as [d h]. intros Hmax. specialize (H Hmax).
  destruct (holder _ h) as [[c g]|]; [|exact H]. destruct H as (i & -> & _). eexists. split; [reflexivity|].
  cbn [iv_registration iv_args iv_kwargs]. split; [reflexivity|]. split; [reflexivity|]. split; [reflexivity|]. apply call_flags.
Qed.

Lemma call_never_raises ops s m : let (d, h) := drun ops in exists r, danswer d (DMsg s (Call m)) = DRouted r.
Proof.
  start ops d h J. destruct (d_outcome_of _ _ (DMsg s (Call m)) J) as (d' & r & _ & -> & H).
  inversion H; try subst d'; subst; try contradiction; eauto.
Qed.

(** ** Yields *)
Lemma pending_view d h i w : DCalls d h -> unanswered i h = Some w -> exists inv, zget i (d_pending d) = Some inv /\ view inv = w.
Proof. intros C H. rewrite <- (dc_pending _ _ C) in H. destruct (zget i _) as [inv|]; [|discriminate]. injection H as <-. eauto. Qed.
Lemma pending_view_none d h i : DCalls d h -> unanswered i h = None -> zget i (d_pending d) = None.
Proof. intros C H. rewrite <- (dc_pending _ _ C) in H. destruct (zget i _); [discriminate|reflexivity]. Qed.

Lemma yield_answer ops s m : let (d, h) := drun ops in
  match unanswered (pyint_Z (yi_request m)) h with
  | None => exists e, danswer d (DMsg s (Yield m)) = DExn (ValueError [e])
  | Some w =>
      if wt_callee w =? s then
        if wants "progress" (yi_options m) && wt_progressive w then
          exists v, sget "progress" (yi_options m) = Some v /\
            danswer d (DMsg s (Yield m)) =
            DRouted (mkRouted (Result (mkResult (wt_request w) (yi_args m) (yi_kwargs m) [(VStr "progress", v)] no_payload)) (wt_caller w))
        else
          danswer d (DMsg s (Yield m)) =
          match open_call (wt_caller w) (pyint_Z (wt_request w)) h with
          | Some _ => DRouted (mkRouted (Result (mkResult (wt_request w) (yi_args m) (yi_kwargs m) [] no_payload)) (wt_caller w))
          | None => DExn KeyError
          end
      else exists e, danswer d (DMsg s (Yield m)) = DExn (ValueError [e])
  end.
Proof.
  start ops d h J. destruct (d_outcome_of _ _ (DMsg s (Yield m)) J) as (d' & r & _ & -> & H).
  destruct J as ((W & O & S) & M & C & T).
  destruct (unanswered _ h) as [w|] eqn:U.
  - destruct (pending_view _ _ _ _ C U) as (inv & G & <-). cbn [view wt_callee wt_progressive wt_caller wt_request].
    rewrite <- (dc_open _ _ C).
    inversion H; try subst d'; subst; try contradiction;
      try (match goal with X : zget _ _ = Some ?i2 |- _ => rewrite G in X; injection X as <- end; rewrite Z.eqb_refl).
    + destruct (Z.eqb_spec (pi_callee inv) s) as [Q|]; [|eauto]. exfalso. match goal with X : forall inv, _ -> _ |- _ => exact (X _ G Q) end.
    + unfold wants. match goal with X : sget _ _ = Some v, Y : truthy v = true |- _ => rewrite X, Y end. cbn [andb].
      match goal with X : truthy (pi_receive_progress inv) = true |- _ => rewrite X end. eauto.
    + match goal with X : _ && _ = false |- _ => rewrite X end. match goal with X : zzmem _ _ = _ |- _ => rewrite zzmem_zzget in X end.
      destruct (zzget _ _); [reflexivity|discriminate].
    + match goal with X : _ && _ = false |- _ => rewrite X end. match goal with X : zzmem _ _ = _ |- _ => rewrite zzmem_zzget in X end.
      destruct (zzget _ _); [discriminate|reflexivity].
  - pose proof (pending_view_none _ _ _ C U) as G.
    inversion H; try subst d'; subst; try contradiction; eauto;
      match goal with X : zget _ _ = Some _ |- _ => rewrite G in X; discriminate X end.
Qed.

(** ** Errors *)
Lemma error_answer ops s m : let (d, h) := drun ops in
  match unanswered (pyint_Z (er_request m)) h with
  | Some w => pyint_Z (er_type m) = 68 -> danswer d (DMsg s (Error m)) =
      DRouted (mkRouted (Error (mkError (PyInt 48) (wt_request w) (er_uri m) (er_args m) (er_kwargs m) (er_details m))) (wt_caller w))
  | None => exists e, danswer d (DMsg s (Error m)) = DExn (ValueError [e])
  end /\
  (pyint_Z (er_type m) <> 68 -> exists e, danswer d (DMsg s (Error m)) = DExn (ValueError [e])).
Proof.
  start ops d h J. destruct (d_outcome_of _ _ (DMsg s (Error m)) J) as (d' & r & _ & -> & H).
  destruct J as ((W & O & S) & M & C & T).
  inversion H; try subst d'; subst; try contradiction.
  - split; [|eauto]. destruct (unanswered _ h) as [w|] eqn:U; [|eauto]. intros E. destruct (pending_view _ _ _ _ C U) as (inv & G & _).
    match goal with X : _ -> zget _ _ = None |- _ => rewrite (X E) in G end. discriminate.
  - split; [|intros Q; destruct Q; assumption]. rewrite <- (dc_pending _ _ C).
    match goal with X : zget _ _ = Some inv |- _ => rewrite X end. cbn [option_map]. reflexivity.
Qed.

(** ** Membership *)
Lemma d_membership ops : let (d, h) := drun ops in
  (forall det, (d_member (pyint_Z (det_session det)) h = false -> danswer d (DJoin det) = DDone) /\
               (d_member (pyint_Z (det_session det)) h = true -> exists e, danswer d (DJoin det) = DExn (ValueError [e]))) /\
  (forall s, (d_member s h = true -> danswer d (DLeave s) = DDone) /\
             (d_member s h = false -> exists e, danswer d (DLeave s) = DExn (ValueError [e]))) /\
  (forall s m, d_member s h = false -> exists e, danswer d (DMsg s (Register m)) = DExn (ValueError [e])) /\
  (forall s m, d_member s h = true -> exists r, danswer d (DMsg s (Register m)) = DRouted r) /\
  (forall s m, d_member s h = false -> exists e, danswer d (DMsg s (Unregister m)) = DExn (ValueError [e])).
Proof.
  start ops d h J. pose proof J as ((W & O & S) & M & C & T).
  split; [|split; [|split; [|split]]].
  - intros det. destruct (d_outcome_of _ _ (DJoin det) J) as (d' & r & _ & -> & H). rewrite <- M, zmem_zget.
    inversion H; try subst d'; subst; repeat match goal with X : zmem _ _ = _ |- _ => rewrite zmem_zget in X end;
      destruct (zget _ _); try discriminate; split; intros; try discriminate; eauto.
  - intros s. destruct (d_outcome_of _ _ (DLeave s) J) as (d' & r & _ & -> & H). rewrite <- M, zmem_zget.
    inversion H; try subst d'; subst; destruct (zget s (d_by_session d)); try discriminate; split; intros; try discriminate; eauto.
  - intros s m. destruct (d_outcome_of _ _ (DMsg s (Register m)) J) as (d' & r & _ & -> & H). rewrite <- M, zmem_zget.
    inversion H; try subst d'; subst; try contradiction; destruct (zget s (d_by_session d)); try discriminate; eauto.
  - intros s m. destruct (d_outcome_of _ _ (DMsg s (Register m)) J) as (d' & r & _ & -> & H). rewrite <- M, zmem_zget.
    inversion H; try subst d'; subst; try contradiction; destruct (zget s (d_by_session d)); try discriminate; eauto.
  - intros s m. destruct (d_outcome_of _ _ (DMsg s (Unregister m)) J) as (d' & r & _ & -> & H). rewrite <- M, zmem_zget.
    inversion H; try subst d'; subst; try contradiction; destruct (zget s (d_by_session d)); try discriminate; eauto.
Qed.

Lemma d_other_messages ops s m : let (d, h) := drun ops in
  match m with Call _ | Yield _ | Register _ | Unregister _ | Error _ => False | _ => True end ->
  danswer d (DMsg s m) = DExn (ValueError ["message type not supported"]).
Proof. destruct (drun ops) as [d h]. destruct m; intros []; reflexivity. Qed.

(** ** Unregister and removal *)
Lemma holder_own d h s i own : DInv1 d -> DTrack d h -> zget s (d_by_session d) = Some own ->
  (exists l, zget i own = Some l) <-> exists p, holder p h = Some (s, i).
Proof.
  intros (W & O & S) T G. split.
  - intros [l L]. destruct (do_own _ O _ _ _ _ G L) as (reg & A & B & D). exists (reg_procedure reg).
    rewrite <- (dt_held _ _ T). apply held_iff; [exact W|]. exists l, reg. auto.
  - intros [p Hp]. rewrite <- (dt_held _ _ T) in Hp. apply held_iff in Hp; [|exact W]. destruct Hp as (l & reg & A & B & D & E).
    destruct (dt_all _ _ T _ _ _ A D) as (own' & P & Q). rewrite G in P. injection P as <-. subst i. eauto.
Qed.
Lemma holder_member d h p s i : DInv d h -> d_ids_issued h <= ID_MAX -> holder p h = Some (s, i) -> d_member s h = true.
Proof.
  intros ((W & O & S) & M & C & T) Hmax Hp. specialize (T Hmax). rewrite <- (dt_held _ _ T) in Hp. apply held_iff in Hp; [|exact W].
  destruct Hp as (l & reg & A & B & D & E). destruct (dt_all _ _ T _ _ _ A D) as (own & P & Q). rewrite <- M, zmem_zget, P. reflexivity.
Qed.

Lemma unregister_ok ops s m : let (d, h) := drun ops in d_ids_issued h <= ID_MAX ->
  ((exists p, holder p h = Some (s, pyint_Z (ur_registration m))) ->
     danswer d (DMsg s (Unregister m)) = DRouted (mkRouted (Unregistered (mkUnregistered (ur_request m))) s)) /\
  ((forall p, holder p h <> Some (s, pyint_Z (ur_registration m))) ->
     exists e, danswer d (DMsg s (Unregister m)) = DExn (ValueError [e])).
Proof.
  start ops d h J. intros Hmax. destruct (d_outcome_of _ _ (DMsg s (Unregister m)) J) as (d' & r & _ & -> & H).
  pose proof J as (I1 & M & C & T). specialize (T Hmax).
  inversion H; try subst d'; subst; try contradiction; split; intros Q; eauto.
  - exfalso. destruct Q as [p Hp]. pose proof (holder_member _ _ _ _ _ J Hmax Hp) as Hm. rewrite <- M, zmem_zget in Hm.
    destruct (zget s (d_by_session d)) as [own|] eqn:G; [|discriminate].
    destruct (proj2 (holder_own d h s (pyint_Z (ur_registration m)) own I1 T G)) as [l L]; [eauto|].
    match goal with X : forall own, _ -> _ |- _ => rewrite (X own) in L by reflexivity end. discriminate.
  - exfalso. match goal with X : zget s _ = Some ?own |- _ =>
      destruct (proj1 (holder_own d h s (pyint_Z (ur_registration m)) own I1 T X)) as [p Hp]; [eauto|exact (Q p Hp)] end.
Qed.

Lemma holder_inj d h p1 p2 s1 s2 i : DInv d h -> d_ids_issued h <= ID_MAX ->
  holder p1 h = Some (s1, i) -> holder p2 h = Some (s2, i) -> p1 = p2.
Proof.
  intros ((W & O & S) & M & C & T) Hmax H1 H2. specialize (T Hmax). rewrite <- (dt_held _ _ T) in H1, H2.
  apply held_iff in H1; [|exact W]. apply held_iff in H2; [|exact W].
  destruct H1 as (l1 & r1 & A1 & B1 & D1 & E1), H2 as (l2 & r2 & A2 & B2 & D2 & E2).
  assert (l1 = l2) by (apply (dt_inj _ _ T _ _ _ _ A1 A2); congruence). subst l2. congruence.
Qed.
Lemma holder_unique_id ops p1 p2 s1 s2 i : let (d, h) := drun ops in d_ids_issued h <= ID_MAX ->
  holder p1 h = Some (s1, i) -> holder p2 h = Some (s2, i) -> p1 = p2.
Proof. start ops d h J. apply holder_inj with (d := d). exact J. Qed.

Lemma quiet_step ops o : d_takes_id (o, danswer (fst (drun ops)) o) (snd (drun ops)) = false ->
  d_ids_issued (snd (drun (ops ++ [o]))) = d_ids_issued (snd (drun ops)).
Proof.
  intros H. rewrite drun_snoc. cbn [snd d_ids_issued]. unfold danswer in H. rewrite H. lia.
Qed.

(** Two dealers give the same answer to a CALL if the procedure is held alike and nothing about calls changed. *)
Lemma call_same d d' s m : d_idgen d' = d_idgen d -> d_call_ids d' = d_call_ids d ->
  DShape d -> DShape d' -> held d' (ca_procedure m) = held d (ca_procedure m) ->
  danswer d' (DMsg s (Call m)) = danswer d (DMsg s (Call m)).
Proof.
  intros E1 E2 W W' E3. unfold danswer. cbn [dstep d_receive_message]. unfold d_call.
  unfold held in E3. destruct (tget (ca_procedure m) (d_by_procedure d)) as [l|] eqn:A, (tget (ca_procedure m) (d_by_procedure d')) as [l'|] eqn:A'.
  - destruct (ds_proc _ W _ _ A) as (reg & s0 & B & C & D). destruct (ds_proc _ W' _ _ A') as (reg' & s0' & B' & C' & D').
    rewrite B, D, B', D' in E3. injection E3 as -> E3. unfold dat in B, B'. rewrite B, B', D, D', E1, E2, E3.
    destruct (next_id (d_idgen d)) as [g id]. destruct (truthy _); [destruct (zzget _ _)|]; reflexivity.
  - destruct (ds_proc _ W _ _ A) as (reg & s0 & B & C & D). rewrite B, D in E3. discriminate.
  - destruct (ds_proc _ W' _ _ A') as (reg & s0 & B & C & D). rewrite B, D in E3. discriminate.
  - reflexivity.
Qed.

Lemma after_unregister ops s m : let (d, h) := drun ops in d_ids_issued h <= ID_MAX ->
  danswer d (DMsg s (Unregister m)) = DRouted (mkRouted (Unregistered (mkUnregistered (ur_request m))) s) ->
  let d' := fst (drun (ops ++ [DMsg s (Unregister m)])) in
  (forall p, has_registration d' p = true <-> has_registration d p = true /\ holder p h <> Some (s, pyint_Z (ur_registration m))) /\
  (forall x c, holder (ca_procedure c) h <> Some (s, pyint_Z (ur_registration m)) ->
     danswer d' (DMsg x (Call c)) = danswer d (DMsg x (Call c))).
Proof.
  pose proof (has_registration_iff (ops ++ [DMsg s (Unregister m)])) as HR'. pose proof (has_registration_iff ops) as HR.
  pose proof (drun_inv (ops ++ [DMsg s (Unregister m)])) as J'. pose proof (drun_snoc ops (DMsg s (Unregister m))) as Hsn.
  start ops d h J. cbn [fst snd] in Hsn. intros Hmax Hans. unfold danswer in Hans. rewrite Hans in Hsn.
  destruct (d_outcome_of _ _ (DMsg s (Unregister m)) J) as (d1 & r & Hst & Hr & H). rewrite Hst in *. cbn [fst snd] in *. subst r.
  rewrite Hsn in *. cbn [fst snd] in *.
  set (h' := (DMsg s (Unregister m), DRouted _) :: h) in *.
  assert (Hq : d_ids_issued h' = d_ids_issued h) by (unfold h'; cbn; lia).
  assert (Hmax' : d_ids_issued h' <= ID_MAX) by lia.
  assert (Hh : forall p, holder p h' = if match holder p h with Some (s', i') => (s =? s') && (pyint_Z (ur_registration m) =? i') | None => false end
                                       then None else holder p h).
  { intros p. unfold h'. cbn [holder registers unregisters d_left]. destruct (holder p h) as [[s' i']|]; [|reflexivity].
    destruct (_ && _); reflexivity. }
  split.
  - intros p. rewrite (HR p Hmax), (HR' p Hmax'), Hh. destruct (holder p h) as [[s' i']|]; [|intuition congruence].
    destruct (Z.eqb_spec s s') as [->|], (Z.eqb_spec (pyint_Z (ur_registration m)) i') as [->|]; cbn [andb]; intuition congruence.
  - intros x c Hc. destruct J as ((W & O & S) & M & C & T), J' as ((W' & O' & S') & M' & C' & T').
    assert (E : held d1 (ca_procedure c) = held d (ca_procedure c)).
    { rewrite (dt_held _ _ (T Hmax)), (dt_held _ _ (T' Hmax')), Hh.
      destruct (holder (ca_procedure c) h) as [[s' i']|]; [|reflexivity].
      destruct (Z.eqb_spec s s'), (Z.eqb_spec (pyint_Z (ur_registration m)) i'); cbn [andb]; congruence. }
    inversion H; try subst d1; subst; try contradiction. apply call_same; assumption.
Qed.

Lemma after_removal ops s : let (d, h) := drun ops in d_ids_issued h <= ID_MAX -> danswer d (DLeave s) = DDone ->
  let d' := fst (drun (ops ++ [DLeave s])) in
  (forall p, has_registration d' p = true <-> has_registration d p = true /\ forall i, holder p h <> Some (s, i)) /\
  (forall x c, (forall i, holder (ca_procedure c) h <> Some (s, i)) -> danswer d' (DMsg x (Call c)) = danswer d (DMsg x (Call c))).
Proof.
  pose proof (has_registration_iff (ops ++ [DLeave s])) as HR'. pose proof (has_registration_iff ops) as HR.
  pose proof (drun_inv (ops ++ [DLeave s])) as J'. pose proof (drun_snoc ops (DLeave s)) as Hsn.
  start ops d h J. cbn [fst snd] in Hsn. intros Hmax Hans. unfold danswer in Hans. rewrite Hans in Hsn.
  destruct (d_outcome_of _ _ (DLeave s) J) as (d1 & r & Hst & Hr & H). rewrite Hst in *. cbn [fst snd] in *. subst r.
  rewrite Hsn in *. cbn [fst snd] in *.
  set (h' := (DLeave s, DDone) :: h) in *.
  assert (Hq : d_ids_issued h' = d_ids_issued h) by (unfold h'; cbn; lia).
  assert (Hmax' : d_ids_issued h' <= ID_MAX) by lia.
  assert (Hh : forall p, holder p h' = if match holder p h with Some (s', i') => s =? s' | None => false end
                                       then None else holder p h).
  { intros p. unfold h'. cbn [holder registers unregisters d_left]. destruct (holder p h) as [[s' i']|]; [|reflexivity].
    destruct (_ =? _); reflexivity. }
  split.
  - intros p. rewrite (HR p Hmax), (HR' p Hmax'), Hh. destruct (holder p h) as [[s' i']|].
    + destruct (Z.eqb_spec s s') as [->|].
      * split; [congruence|]. intros [_ Q]. destruct (Q i' eq_refl).
      * split; [|congruence]. intros _. split; [congruence|]. intros i. congruence.
    + intuition congruence.
  - intros x c Hc. destruct J as ((W & O & S) & M & C & T), J' as ((W' & O' & S') & M' & C' & T').
    assert (E : held d1 (ca_procedure c) = held d (ca_procedure c)).
    { rewrite (dt_held _ _ (T Hmax)), (dt_held _ _ (T' Hmax')), Hh.
      destruct (holder (ca_procedure c) h) as [[s' i']|]; [|reflexivity].
      destruct (Z.eqb_spec s s') as [->|]; [|reflexivity]. destruct (Hc i' eq_refl). }
    inversion H; try subst d1; subst; try contradiction. apply call_same; assumption.
Qed.

(** ** Results *)
Lemma yield_only_from_callee ops s m r : let (d, h) := drun ops in danswer d (DMsg s (Yield m)) = DRouted r ->
  exists w res, unanswered (pyint_Z (yi_request m)) h = Some w /\ wt_callee w = s /\
    r = mkRouted (Result res) (wt_caller w) /\ re_request res = wt_request w /\
    re_args res = yi_args m /\ re_kwargs res = yi_kwargs m.
Proof.
  pose proof (yield_answer ops s m) as H. destruct (drun ops) as [d h]. intros Hr.
  destruct (unanswered _ h) as [w|]; [|destruct H; congruence].
  destruct (Z.eqb_spec (wt_callee w) s) as [E|]; [|destruct H; congruence]. exists w.
  destruct (_ && _).
  - destruct H as (v & _ & H). rewrite H in Hr. injection Hr as <-. eexists. repeat split; auto.
  - destruct (open_call _ _ _); rewrite H in Hr; [|discriminate]. injection Hr as <-. eexists. repeat split; auto.
Qed.

Lemma yield_from_callee ops s m w : let (d, h) := drun ops in
  unanswered (pyint_Z (yi_request m)) h = Some w -> wt_callee w = s ->
  open_call (wt_caller w) (pyint_Z (wt_request w)) h <> None ->
  exists res, danswer d (DMsg s (Yield m)) = DRouted (mkRouted (Result res) (wt_caller w)) /\ re_request res = wt_request w /\
    re_args res = yi_args m /\ re_kwargs res = yi_kwargs m.
Proof.
  pose proof (yield_answer ops s m) as H. destruct (drun ops) as [d h]. intros U E K. rewrite U, E, Z.eqb_refl in H.
  destruct (_ && _).
  - destruct H as (v & _ & H). rewrite H. eexists. repeat split.
  - destruct (open_call _ _ _); [|congruence]. rewrite H. eexists. repeat split.
Qed.

(** When does the answer to a plain call come back?  If the caller did not use the request id again in between. *)
Definition reuses s r (e : dentry) : bool :=
  match invokes e with Some (s', m, _, _) => (s' =? s) && (pyint_Z (ca_request m) =? r) | None => false end.
Definition returns s r (e : dentry) : bool :=
  match results e with Some (_, true, s', r') => (s' =? s) && (r' =? r) | _ => false end.
Lemma open_call_kept s r i newer e older : 
  (exists m c, invokes e = Some (s, m, i, c) /\ pyint_Z (ca_request m) = r) ->
  (forall x, In x newer -> reuses s r x = false /\ returns s r x = false) ->
  open_call s r (newer ++ e :: older) = Some i.
Proof.
  intros (m & c & E & Hr) H. induction newer as [|x newer IH].
  - cbn [app open_call]. rewrite E, Hr, !Z.eqb_refl. reflexivity.
  - cbn [app open_call]. destruct (H x (or_introl eq_refl)) as [A B]. unfold reuses in A. unfold returns in B.
    assert (IH' : open_call s r (newer ++ e :: older) = Some i) by (apply IH; intros y Hy; apply H; right; exact Hy).
    destruct (invokes x) as [[[[s' m'] i'] c']|]; [rewrite A; exact IH'|].
    destruct (results x) as [[[[j [|]] s'] r']|]; [rewrite B; exact IH'|exact IH'|exact IH'].
Qed.

(** ** One final answer *)
Definition final i (e : dentry) : Prop := fails e = Some i \/ exists c r, results e = Some (i, true, c, r).
Definition forwards i (e : dentry) : Prop := fails e = Some i \/ exists f c r, results e = Some (i, f, c, r).

Lemma forward_pending d h o d' r i : DInv d h -> doutcome d o d' r -> forwards i (o, r) -> exists w, unanswered i h = Some w.
Proof.
  intros (_ & _ & C & _) H F. rewrite <- (dc_pending _ _ C).
  destruct H; try (destruct F as [F|(f & c0 & r0 & F)]; cbn in F; discriminate F).
  - destruct F as [F|(f & c0 & r0 & F)]; cbn in F; [discriminate|]. injection F as <- _ _ _. rewrite H. cbn [option_map]. eauto.
  - destruct F as [F|(f & c0 & r0 & F)]; cbn in F; [discriminate|]. injection F as <- _ _ _. rewrite H. cbn [option_map]. eauto.
  - destruct F as [F|(f & c0 & r0 & F)]; cbn in F; [|discriminate]. injection F as <-. rewrite H0. cbn [option_map]. eauto.
  - destruct F as [F|(f & c0 & r0 & F)]; destruct m; cbn in F; discriminate.
Qed.

Lemma drun_unsnoc ops e h : snd (drun ops) = e :: h ->
  exists ops' o, ops = ops' ++ [o] /\ snd (drun ops') = h /\ e = (o, danswer (fst (drun ops')) o).
Proof.
  intros H. destruct ops as [|o ops _] using rev_ind; [discriminate|]. rewrite drun_snoc in H. cbn [snd] in H. injection H as <- <-.
  exists ops, o. auto.
Qed.

Lemma final_quiet i newer e older : final i e -> forall ops, snd (drun ops) = newer ++ e :: older -> d_ids_issued (newer ++ e :: older) <= ID_MAX ->
  unanswered i (newer ++ e :: older) = None /\ 1 <= i <= d_ids_issued (newer ++ e :: older) /\ forall x, In x newer -> ~ forwards i x.
Proof.
  intros F. induction newer as [|x newer IH]; intros ops Hops Hmax.
  - cbn [app] in *. destruct (drun_unsnoc _ _ _ Hops) as (ops' & o & -> & Hh & He).
    pose proof (drun_inv ops') as J. rewrite Hh in J. destruct (d_outcome_of _ _ o J) as (d' & r & Hst & Hr & H). rewrite Hr in He. subst e.
    assert (FF : forwards i (o, r)) by (destruct F as [F|(c & r0 & F)]; [left|right]; eauto).
    destruct (forward_pending _ _ _ _ _ _ J H FF) as [w Hw].
    pose proof (drun_inv (ops' ++ [o])) as J'. rewrite drun_snoc, Hh, Hst in J'. cbn [fst snd] in J'.
    destruct J as (_ & _ & C & T). pose proof (d_ids_issued_cons (o, r) older).
    specialize (T ltac:(lia)). rewrite <- (dc_pending _ _ C) in Hw. destruct (zget i _) as [inv|] eqn:G; [|discriminate].
    pose proof (dt_pending _ _ T _ _ G) as Hi. rewrite (dt_gen _ _ T) in Hi.
    split; [|split; [lia|intros x []]].
    cbn [unanswered]. destruct (invokes (o, r)) as [[[[s m] i'] c]|] eqn:E1.
    { exfalso. destruct F as [F|(c0 & r0 & F)]; [destruct o as [| |s0 []]; discriminate|destruct o as [| |s0 []]; discriminate]. }
    destruct F as [F|(c & r0 & F)]; rewrite F.
    + destruct (results (o, r)) as [[[[i' [|]] c'] r']|] eqn:E2.
      * destruct o as [| |s0 []]; discriminate.
      * rewrite Z.eqb_refl. reflexivity.
      * rewrite Z.eqb_refl. reflexivity.
    + rewrite Z.eqb_refl. reflexivity.
  - cbn [app] in *. destruct (drun_unsnoc _ _ _ Hops) as (ops' & o & -> & Hh & He).
    pose proof (d_ids_issued_cons x (newer ++ e :: older)) as Hc.
    destruct (IH ops' Hh ltac:(lia)) as (A & B & D).
    pose proof (drun_inv ops') as J. rewrite Hh in J. destruct (d_outcome_of _ _ o J) as (d' & r & Hst & Hr & H). rewrite Hr in He. subst x.
    assert (N : ~ forwards i (o, r)).
    { intros FF. destruct (forward_pending _ _ _ _ _ _ J H FF) as [w Hw]. congruence. }
    split; [|split; [lia|intros y [<-|Hy]; auto]].
    destruct J as (I1 & M & C & T). specialize (T ltac:(lia)). pose proof (dt_gen _ _ T) as Hg.
    pose proof (DCalls_step _ _ _ _ _ I1 H C) as C'. rewrite <- (dc_pending _ _ C'). pose proof (pending_view_none _ _ _ C A) as G.
    destruct I1 as (W & O & S).
    destruct H; try (rewrite G; reflexivity); cbn [add_call set_dcalls set_dpending set_didgen d_pending].
    + cbn [set_dsessions set_dsession d_pending]. rewrite G. reflexivity.
    + match goal with X : d_pending _ = d_pending _ |- _ => rewrite X, G end. reflexivity.
    + rewrite zget_zset. destruct (Z.eqb_spec i id) as [->|]; [|rewrite G; reflexivity]. exfalso.
      cbn [d_ids_issued] in Hmax.
      match type of Hmax with context [d_takes_id ?a ?b] => destruct (d_takes_id a b) eqn:K end.
      * match goal with X : next_id _ = _ |- _ => rewrite next_id_fresh in X by lia; injection X as <- <- end. lia.
      * cbn [d_takes_id registers invokes invocation_for] in K. unfold d_takes_id in K. cbn [registers invokes invocation_for] in K.
        unfold fresh in K. destruct (wants "progress" (ca_options m)) eqn:P; [|discriminate]. cbn [negb orb] in K.
        rewrite <- (dc_open _ _ C) in K. match goal with X : true = true -> _ |- _ => rewrite X in K by reflexivity end. discriminate.
    + rewrite zget_zdel by exact (de_pending _ S). rewrite G. destruct (_ =? _); reflexivity.
    + rewrite zget_zdel by exact (de_pending _ S). rewrite G. destruct (_ =? _); reflexivity.
    + rewrite G. reflexivity.
    + match goal with X : d_pending _ = d_pending _ |- _ => rewrite X, G end. reflexivity.
    + rewrite zget_zdel by exact (de_pending _ S). rewrite G. destruct (_ =? _); reflexivity.
Qed.

Lemma one_final_answer ops newer e older i : snd (drun ops) = newer ++ e :: older -> d_ids_issued (newer ++ e :: older) <= ID_MAX ->
  final i e -> forall x, In x newer -> ~ forwards i x.
Proof. intros Hops Hmax F. exact (proj2 (proj2 (final_quiet i newer e older F ops Hops Hmax))). Qed.

(** ** Progressive results *)
Lemma progress_yields ops s ms w i : let (d, h) := drun ops in
  unanswered i h = Some w -> wt_callee w = s -> wt_progressive w = true ->
  (forall m, In m ms -> pyint_Z (yi_request m) = i /\ wants "progress" (yi_options m) = true) ->
  fst (drun (ops ++ map (fun m => DMsg s (Yield m)) ms)) = d /\
  Forall2 (fun m e => fst e = DMsg s (Yield m) /\ exists v, sget "progress" (yi_options m) = Some v /\
             snd e = DRouted (mkRouted (Result (mkResult (wt_request w) (yi_args m) (yi_kwargs m) [(VStr "progress", v)] no_payload)) (wt_caller w)))
    (rev ms) (firstn (length ms) (snd (drun (ops ++ map (fun m => DMsg s (Yield m)) ms)))).
Proof.
  induction ms as [|m ms IH] using rev_ind.
  - rewrite app_nil_r. destruct (drun ops) as [d h]. intros. split; [reflexivity|constructor].
  - pose proof (drun_inv ops) as J. destruct (drun ops) as [d h] eqn:E. cbn [fst snd] in J. intros U Hs Hp Hms.
    destruct IH as [IH1 IH2]; auto. { intros y Hy. apply Hms. apply in_app_iff. auto. }
    destruct (Hms m) as [Hi Hw]; [apply in_app_iff; right; left; reflexivity|].
    rewrite map_app, app_assoc. cbn [map]. rewrite drun_snoc, IH1. cbn [fst snd].
    destruct (d_outcome_of _ _ (DMsg s (Yield m)) J) as (d' & r & Hst & Hr & H). rewrite Hst. cbn [fst snd].
    destruct J as (_ & _ & C & _). destruct (pending_view _ _ _ _ C U) as (inv & G & V). subst w i.
    cbn [view wt_callee wt_progressive wt_request wt_caller] in *.
    rewrite rev_app_distr, app_length, Nat.add_comm. cbn [rev app length Nat.add firstn].
    inversion H; try subst d'; subst; try contradiction;
      repeat match goal with X : zget _ _ = Some ?x |- _ => lazymatch x with inv => fail | _ => rewrite G in X; injection X as <- end end.
    + match goal with X : forall inv, _ -> _ |- _ => destruct (X _ G eq_refl) end.
    + split; [reflexivity|]. constructor; [|exact IH2]. cbn [fst snd]. eauto.
    + exfalso. match goal with X : _ && _ = false |- _ => rewrite Hw, Hp in X end. discriminate.
    + exfalso. match goal with X : _ && _ = false |- _ => rewrite Hw, Hp in X end. discriminate.
Qed.

Lemma final_yield ops s m w : let (d, h) := drun ops in
  unanswered (pyint_Z (yi_request m)) h = Some w -> wt_callee w = s ->
  wants "progress" (yi_options m) && wt_progressive w = false ->
  open_call (wt_caller w) (pyint_Z (wt_request w)) h <> None ->
  danswer d (DMsg s (Yield m)) =
    DRouted (mkRouted (Result (mkResult (wt_request w) (yi_args m) (yi_kwargs m) [] no_payload)) (wt_caller w)) /\
  let d' := fst (drun (ops ++ [DMsg s (Yield m)])) in
  (forall x m', pyint_Z (yi_request m') = pyint_Z (yi_request m) -> exists e, danswer d' (DMsg x (Yield m')) = DExn (ValueError [e])) /\
  (forall x m', pyint_Z (er_request m') = pyint_Z (yi_request m) -> exists e, danswer d' (DMsg x (Error m')) = DExn (ValueError [e])).
Proof.
  pose proof (yield_answer ops s m) as H. pose proof (drun_snoc ops (DMsg s (Yield m))) as Hsn.
  pose proof (fun x m' => yield_answer (ops ++ [DMsg s (Yield m)]) x m') as Hy.
  pose proof (fun x m' => error_answer (ops ++ [DMsg s (Yield m)]) x m') as He.
  destruct (drun ops) as [d h]. cbn [fst snd] in Hsn. intros U E P K. rewrite U, E, Z.eqb_refl, P in H.
  destruct (open_call _ _ _); [|congruence]. split; [exact H|]. cbn zeta. rewrite Hsn in *. cbn [fst].
  unfold danswer in H. rewrite H in *.
  assert (N : unanswered (pyint_Z (yi_request m)) ((DMsg s (Yield m), DRouted (mkRouted (Result (mkResult (wt_request w) (yi_args m) (yi_kwargs m) [] no_payload)) (wt_caller w))) :: h) = None).
  { cbn [unanswered invokes results]. change (sget "progress" (re_details _)) with (@None val). cbn iota. rewrite Z.eqb_refl. reflexivity. }
  split; intros x m' Hm.
  - specialize (Hy x m'). rewrite Hm, N in Hy. exact Hy.
  - specialize (He x m'). rewrite Hm, N in He. exact (proj1 He).
Qed.

(** ** Chunks *)
Lemma chunk ops s m i : let (d, h) := drun ops in d_ids_issued h <= ID_MAX ->
  open_call s (pyint_Z (ca_request m)) h = Some i -> wants "progress" (ca_options m) = true ->
  forall c g, holder (ca_procedure m) h = Some (c, g) ->
  exists iv, danswer d (DMsg s (Call m)) = DRouted (mkRouted (Invocation iv) c) /\ iv_request iv = PyInt i /\ iv_registration iv = PyInt g /\
    (forall o, danswer (fst (drun (ops ++ [DMsg s (Call m)]))) o = danswer d o).
Proof.
  pose proof (call_answer ops s m) as H. pose proof (drun_snoc ops (DMsg s (Call m))) as Hsn. pose proof (drun_inv ops) as J.
  destruct (drun ops) as [d h]. cbn [fst snd] in *. intros Hmax K P c g Hh.
  specialize (H Hmax). rewrite Hh in H. destruct H as (j & A & B). unfold fresh in B. rewrite P, K in B. cbn [negb orb] in B. injection B as <-.
  eexists. split; [exact A|]. split; [reflexivity|]. split; [reflexivity|]. intros o. rewrite Hsn. cbn [fst].
  destruct (d_outcome_of _ _ (DMsg s (Call m)) J) as (d' & r & Hst & Hr & Ho). rewrite Hst. cbn [fst].
  destruct J as (_ & _ & C & _). rewrite <- (dc_open _ _ C) in K.
  inversion Ho; try subst d'; subst; try contradiction; try reflexivity.
  match goal with X : _ -> zzget _ _ = None |- _ => rewrite X in K by exact P end. discriminate.
Qed.

(** ** Exceptions *)
Lemma d_exceptions ops o e : let (d, h) := drun ops in danswer d o = DExn e ->
  (exists a, e = ValueError [a]) \/
  (e = KeyError /\ exists s m w, o = DMsg s (Yield m) /\ unanswered (pyint_Z (yi_request m)) h = Some w /\ wt_callee w = s /\
     wants "progress" (yi_options m) && wt_progressive w = false /\
     open_call (wt_caller w) (pyint_Z (wt_request w)) h = None).
Proof.
  start ops d h J. destruct (d_outcome_of _ _ o J) as (d' & r & Hst & -> & H). intros E. subst r.
  destruct J as (_ & _ & C & _).
  inversion H; try subst d'; subst; eauto.
  right. split; [reflexivity|]. exists (pi_callee inv), m, (view inv). split; [reflexivity|].
  match goal with X : zget _ _ = _ |- _ => rewrite <- (dc_pending _ _ C), X end. split; [reflexivity|]. split; [reflexivity|].
  split; [assumption|]. cbn [view wt_caller wt_request]. rewrite <- (dc_open _ _ C).
  match goal with X : zzmem _ _ = _ |- _ => rewrite zzmem_zzget in X end. destruct (zzget _ _); [discriminate|reflexivity].
Qed.

(** ** Recipients *)
Lemma d_recipients ops s m r : let (d, h) := drun ops in d_ids_issued h <= ID_MAX -> danswer d (DMsg s m) = DRouted r ->
  match rt_message r with
  | Invocation _ | Registered _ | Unregistered _ => d_member (rt_recipient r) h = true
  | Result _ => exists i w, unanswered i h = Some w /\ rt_recipient r = wt_caller w
  | Error e => rt_recipient r = s \/ exists i w, unanswered i h = Some w /\ rt_recipient r = wt_caller w
  | _ => False
  end.
Proof.
  start ops d h J. intros Hmax Hr. destruct (d_outcome_of _ _ (DMsg s m) J) as (d' & r' & Hst & Hr' & H). rewrite Hr in Hr'. subst r'.
  pose proof J as ((W & O & S) & M & C & T). specialize (T Hmax).
  inversion H; try subst d'; subst; cbn [rt_message rt_recipient invocation_for].
  - auto.
  - eapply holder_member; eauto. eapply holder_reg; eauto.
  - eapply holder_member; eauto. eapply holder_reg; eauto.
  - eexists _, _. rewrite <- (dc_pending _ _ C). match goal with X : zget _ _ = _ |- _ => rewrite X end. split; reflexivity.
  - eexists _, _. rewrite <- (dc_pending _ _ C). match goal with X : zget _ _ = _ |- _ => rewrite X end. split; reflexivity.
  - auto.
  - rewrite <- M, zmem_zget. match goal with X : zget s _ = _ |- _ => rewrite X end. reflexivity.
  - rewrite <- M, zmem_zget. match goal with X : zget s _ = _ |- _ => rewrite X end. reflexivity.
  - right. eexists _, _. rewrite <- (dc_pending _ _ C). match goal with X : zget _ (d_pending _) = _ |- _ => rewrite X end. split; reflexivity.
Qed.

(** ** Ids *)
Lemma register_id_fresh ops s m i : let (d, h) := drun ops in d_ids_issued h < ID_MAX ->
  registers (DMsg s (Register m), danswer d (DMsg s (Register m))) = Some (s, rg_procedure m, i) -> ~ In i (ids_seen h).
Proof.
  start ops d h J. intros Hmax Hr. destruct (d_outcome_of _ _ (DMsg s (Register m)) J) as (d' & r' & Hst & Hr' & H). rewrite Hr' in Hr. clear Hr' Hst.
  pose proof J as ((W & O & S) & M & C & T). specialize (T ltac:(lia)). pose proof (dt_gen _ _ T) as Hg.
  inversion H; try subst d'; subst; try contradiction; cbn in Hr; try discriminate.
  match goal with X : next_id _ = _ |- _ => rewrite next_id_fresh in X by lia; injection X as <- <- end.
  injection Hr as <-. intros Hin. pose proof (dt_seen _ _ T _ Hin). lia.
Qed.
Lemma invocation_id_fresh ops s m iv c : let (d, h) := drun ops in d_ids_issued h < ID_MAX ->
  danswer d (DMsg s (Call m)) = DRouted (mkRouted (Invocation iv) c) ->
  if fresh s m h then ~ In (pyint_Z (iv_request iv)) (ids_seen h)
  else open_call s (pyint_Z (ca_request m)) h = Some (pyint_Z (iv_request iv)).
Proof.
  pose proof (call_answer ops s m) as H. start ops d h J. intros Hmax Hr. specialize (H ltac:(lia)).
  destruct (holder _ h) as [[c' g]|]; [|rewrite Hr in H; discriminate]. destruct H as (i & A & B). rewrite Hr in A.
  unfold invocation_for in A. injection A as -> ->. cbn [iv_request pyint_Z]. destruct (fresh s m h); [|exact B].
  destruct J as (_ & _ & _ & T). specialize (T ltac:(lia)). pose proof (dt_gen _ _ T) as Hg.
  rewrite next_id_fresh in B by lia. cbn [fst] in B. injection B as <-. intros Hin. pose proof (dt_seen _ _ T _ Hin). lia.
Qed.

(** After its final RESULT the next CALL with the same request id starts afresh. *)
Lemma result_releases ops s m c req : let (d, h) := drun ops in
  results (DMsg s (Yield m), danswer d (DMsg s (Yield m))) = Some (pyint_Z (yi_request m), true, c, req) ->
  let h' := snd (drun (ops ++ [DMsg s (Yield m)])) in
  unanswered (pyint_Z (yi_request m)) h' = None /\ open_call c req h' = None /\
  forall m', pyint_Z (ca_request m') = req -> fresh c m' h' = true.
Proof.
  pose proof (drun_snoc ops (DMsg s (Yield m))) as Hsn. destruct (drun ops) as [d h]. cbn [fst snd] in Hsn. intros Hr.
  cbn zeta. rewrite Hsn. cbn [snd]. unfold danswer in Hr.
  assert (K : open_call c req ((DMsg s (Yield m), snd (dstep d (DMsg s (Yield m)))) :: h) = None).
  { cbn [open_call]. change (invokes (DMsg s (Yield m), _)) with (@None (Z * call * Z * Z)). rewrite Hr, !Z.eqb_refl. reflexivity. }
  split; [|split; [exact K|]].
  - cbn [unanswered]. change (invokes (DMsg s (Yield m), _)) with (@None (Z * call * Z * Z)). rewrite Hr, Z.eqb_refl. reflexivity.
  - intros m' <-. unfold fresh. rewrite K. apply orb_true_r.
Qed.

(** ** Spec sanity *)
Lemma reg_excl e x : registers e = Some x -> unregisters e = None /\ d_left e = None.
Proof. destruct e as [[| |s []] []]; cbn; try discriminate; auto. Qed.
Lemma unreg_excl e x : unregisters e = Some x -> registers e = None /\ d_left e = None.
Proof. destruct e as [[| |s []] [|[[]]|]]; cbn; try discriminate; auto. Qed.

Definition ends_holding p s i (x : dentry) : Prop :=
  (exists s' i', registers x = Some (s', p, i')) \/ unregisters x = Some (s, i) \/ d_leaves s x = true.
Lemma holder_meaning p s i h : holder p h = Some (s, i) <->
  exists newer e older, h = newer ++ e :: older /\ registers e = Some (s, p, i) /\ forall x, In x newer -> ~ ends_holding p s i x.
Proof.
  induction h as [|e h IH].
  { cbn. split; [discriminate|]. intros (n & e & o & H & _). destruct n; discriminate. }
  assert (Skip : ~ ends_holding p s i e -> (holder p h = Some (s, i) <-> 
     exists newer e' older, e :: h = newer ++ e' :: older /\ registers e' = Some (s, p, i) /\ forall x, In x newer -> ~ ends_holding p s i x)).
  { intros N. rewrite IH. split.
    - intros (n & e' & o & -> & A & B). exists (e :: n), e', o. split; [reflexivity|]. split; [exact A|]. intros x [<-|Hx]; auto.
    - intros (n & e' & o & E & A & B). destruct n as [|y n]; injection E as -> ->.
      + destruct N. left. eauto.
      + exists n, e', o. split; [reflexivity|]. split; [exact A|]. intros x Hx. apply B. right. exact Hx. }
  assert (Stop : (registers e <> Some (s, p, i)) -> ends_holding p s i e ->
     ~ exists newer e' older, e :: h = newer ++ e' :: older /\ registers e' = Some (s, p, i) /\ forall x, In x newer -> ~ ends_holding p s i x).
  { intros N E (n & e' & o & Q & A & B). destruct n as [|y n]; injection Q as -> ->; [contradiction|]. exact (B y (or_introl eq_refl) E). }
  cbn [holder]. destruct (registers e) as [[[s' p'] i']|] eqn:R.
  - destruct (reg_excl _ _ R) as [U L]. destruct (String.eqb_spec p' p) as [->|Hp].
    + split.
      * intros [= -> ->]. exists [], e, h. split; [reflexivity|]. split; [exact R|]. intros x [].
      * intros Q. destruct (Z.eq_dec s' s) as [->|]; [destruct (Z.eq_dec i' i) as [->|]; [reflexivity|]|]; exfalso; revert Q;
          apply Stop; try congruence; left; eauto.
    + apply Skip. intros [(a & b & E)|[E|E]].
      * rewrite R in E. injection E as _ -> _. contradiction.
      * congruence.
      * unfold d_leaves in E. rewrite L in E. discriminate.
  - destruct (unregisters e) as [[s' i']|] eqn:U.
    + destruct (unreg_excl _ _ U) as [_ L]. rewrite L. destruct (holder p h) as [[s0 i0]|] eqn:Hh.
      * destruct (Z.eqb_spec s' s0) as [->|Hs]; [destruct (Z.eqb_spec i' i0) as [->|Hi]|]; cbn [andb].
        -- split; [discriminate|]. intros Q. exfalso.
           destruct (Z.eq_dec s0 s) as [->|]; [destruct (Z.eq_dec i0 i) as [->|]|].
           ++ revert Q. apply Stop; [congruence|]. right. left. exact U.
           ++ assert (N : ~ ends_holding p s i e).
              { intros [(a & b & E)|[E|E]]; try congruence. unfold d_leaves in E. rewrite L in E. discriminate. }
              apply (Skip N) in Q. congruence.
           ++ assert (N : ~ ends_holding p s i e).
              { intros [(a & b & E)|[E|E]]; try congruence. unfold d_leaves in E. rewrite L in E. discriminate. }
              apply (Skip N) in Q. congruence.
        -- assert (Q : (s0, i0) = (s, i) -> ~ ends_holding p s i e).
           { intros [= -> ->] [(a & b & E)|[E|E]]; try congruence. unfold d_leaves in E. rewrite L in E. discriminate. }
           split.
           ++ intros [= -> ->]. apply Skip; auto.
           ++ intros K. destruct (Z.eq_dec s0 s) as [->|]; [destruct (Z.eq_dec i' i) as [->|]|].
              ** exfalso. revert K. apply Stop; [congruence|]. right. left. exact U.
              ** apply Skip in K; [exact K|]. intros [(a & b & E)|[E|E]]; try congruence. unfold d_leaves in E. rewrite L in E. discriminate.
              ** apply Skip in K; [exact K|]. intros [(a & b & E)|[E|E]]; try congruence. unfold d_leaves in E. rewrite L in E. discriminate.
        -- split.
           ++ intros [= -> ->]. apply Skip; auto. intros [(a & b & E)|[E|E]]; try congruence. unfold d_leaves in E. rewrite L in E. discriminate.
           ++ intros K. destruct (Z.eq_dec s' s) as [->|]; [destruct (Z.eq_dec i' i) as [->|]|].
              ** exfalso. revert K. apply Stop; [congruence|]. right. left. exact U.
              ** apply Skip in K; [exact K|]. intros [(a & b & E)|[E|E]]; try congruence. unfold d_leaves in E. rewrite L in E. discriminate.
              ** apply Skip in K; [exact K|]. intros [(a & b & E)|[E|E]]; try congruence. unfold d_leaves in E. rewrite L in E. discriminate.
      * split; [discriminate|]. intros K. destruct (Z.eq_dec s' s) as [->|]; [destruct (Z.eq_dec i' i) as [->|]|].
        -- exfalso. revert K. apply Stop; [congruence|]. right. left. exact U.
        -- apply Skip in K; [exact K|]. intros [(a & b & E)|[E|E]]; try congruence. unfold d_leaves in E. rewrite L in E. discriminate.
        -- apply Skip in K; [exact K|]. intros [(a & b & E)|[E|E]]; try congruence. unfold d_leaves in E. rewrite L in E. discriminate.
    + destruct (d_left e) as [s'|] eqn:L.
      * assert (N : s' <> s -> ~ ends_holding p s i e).
        { intros Hn [(a & b & E)|[E|E]]; try congruence. unfold d_leaves in E. rewrite L in E. apply Z.eqb_eq in E. congruence. }
        assert (Y : s' = s -> ends_holding p s i e).
        { intros ->. right. right. unfold d_leaves. rewrite L. apply Z.eqb_refl. }
        destruct (Z.eq_dec s' s) as [->|Hn].
        -- split; [|intros K; exfalso; revert K; apply Stop; [congruence|auto]].
           destruct (holder p h) as [[s0 i0]|]; [|discriminate]. destruct (Z.eqb_spec s s0); [discriminate|congruence].
        -- rewrite <- (Skip (N Hn)). destruct (holder p h) as [[s0 i0]|]; [|tauto].
           destruct (Z.eqb_spec s' s0) as [->|]; [|tauto]. split; congruence.
      * replace (match holder p h with Some (s', i') => Some (s', i') | None => None end) with (holder p h) by (destruct (holder p h) as [[]|]; reflexivity).
        apply Skip. intros [(a & b & E)|[E|E]]; try congruence. unfold d_leaves in E. rewrite L in E. discriminate.
Qed.

Definition ends_waiting i (x : dentry) (before : dhistory) : Prop :=
  (exists s m c, invokes x = Some (s, m, i, c) /\ fresh s m before = true) \/
  (exists c r, results x = Some (i, true, c, r)) \/ fails x = Some i \/ crashes x = Some i.
Lemma unanswered_meaning i w h : unanswered i h = Some w <->
  exists newer e older s m c, h = newer ++ e :: older /\ invokes e = Some (s, m, i, c) /\ fresh s m older = true /\
    w = mkWaiting s (ca_request m) c (wants "receive_progress" (ca_options m)) /\
    forall n1 x n2, newer = n1 ++ x :: n2 -> ~ ends_waiting i x (n2 ++ e :: older).
Proof.
  induction h as [|e h IH].
  { cbn. split; [discriminate|]. intros (n & e & o & s & m & c & H & _). destruct n; discriminate. }
  set (R := exists newer e' older s m c, e :: h = newer ++ e' :: older /\ invokes e' = Some (s, m, i, c) /\ fresh s m older = true /\
    w = mkWaiting s (ca_request m) c (wants "receive_progress" (ca_options m)) /\
    forall n1 x n2, newer = n1 ++ x :: n2 -> ~ ends_waiting i x (n2 ++ e' :: older)).
  assert (Skip : ~ ends_waiting i e h -> (unanswered i h = Some w <-> R)).
  { intros N. unfold R. rewrite IH. split.
    - intros (n & e' & o & s & m & c & -> & A & B & C & D). exists (e :: n), e', o, s, m, c. repeat (split; [assumption || reflexivity|]).
      intros n1 x n2 E. destruct n1 as [|y n1]; injection E as -> ->; [exact N|exact (D _ _ _ eq_refl)].
    - intros (n & e' & o & s & m & c & E & A & B & C & D). destruct n as [|y n]; injection E as -> ->.
      + destruct N. left. exists s, m, c. auto.
      + exists n, e', o, s, m, c. repeat (split; [assumption || reflexivity|]). intros n1 x n2 E. apply (D (y :: n1) x n2). rewrite E. reflexivity. }
  assert (Stop : invokes e = None -> ends_waiting i e h -> ~ R).
  { intros N E (n & e' & o & s & m & c & Q & A & B & C & D). destruct n as [|y n]; injection Q as -> ->; [congruence|].
    exact (D [] _ n eq_refl E). }
  cbn [unanswered]. destruct (invokes e) as [[[[s m] i'] c]|] eqn:I.
  - assert (X1 : results e = None /\ fails e = None /\ crashes e = None).
    { destruct e as [[| |s0 []] []]; cbn in I |- *; try discriminate; auto. }
    destruct X1 as (X1 & X2 & X3). destruct (Z.eqb_spec i' i) as [->|Hi]; [destruct (fresh s m h) eqn:F|]; cbn [andb].
    + split.
      * intros [= <-]. exists [], e, h, s, m, c. repeat (split; [assumption || reflexivity|]). intros n1 x n2 E. destruct n1; discriminate.
      * intros (n & e' & o & s' & m' & c' & Q & A & B & C & D). destruct n as [|y n]; injection Q as -> ->.
        -- rewrite I in A. injection A as -> -> ->. congruence.
        -- destruct (D [] _ n eq_refl). left. exists s, m, c. auto.
    + apply Skip. intros [(s' & m' & c' & A & B)|[(c' & r & A)|[A|A]]]; congruence.
    + apply Skip. intros [(s' & m' & c' & A & B)|[(c' & r & A)|[A|A]]]; congruence.
  - destruct (results e) as [[[[i' [|]] c] r]|] eqn:RS.
    + assert (X1 : fails e = None /\ crashes e = None).
      { destruct e as [[| |s0 []] [|[[]]|[]]]; cbn in RS |- *; try discriminate; auto. }
      destruct X1 as [X1 X2]. destruct (Z.eqb_spec i' i) as [->|Hi].
      * split; [discriminate|]. intros Q. exfalso. revert Q. apply Stop; [auto|]. right. left. eauto.
      * apply Skip. intros [(s' & m' & c' & A & B)|[(c' & r' & A)|[A|A]]]; congruence.
    + assert (X1 : fails e = None /\ crashes e = None).
      { destruct e as [[| |s0 []] [|[[]]|[]]]; cbn in RS |- *; try discriminate; auto. }
      destruct X1 as [X1 X2]. rewrite X1, X2. apply Skip. intros [(s' & m' & c' & A & B)|[(c' & r' & A)|[A|A]]]; congruence.
    + destruct (fails e) as [i'|] eqn:FL.
      * assert (X2 : crashes e = None) by (destruct e as [[| |s0 []] [|[[]]|[]]]; cbn in FL |- *; try discriminate; auto).
        destruct (Z.eqb_spec i' i) as [->|Hi].
        -- split; [discriminate|]. intros Q. exfalso. revert Q. apply Stop; [auto|]. right. right. left. exact FL.
        -- apply Skip. intros [(s' & m' & c' & A & B)|[(c' & r' & A)|[A|A]]]; congruence.
      * destruct (crashes e) as [i'|] eqn:CR.
        -- destruct (Z.eqb_spec i' i) as [->|Hi].
           ++ split; [discriminate|]. intros Q. exfalso. revert Q. apply Stop; [auto|]. right. right. right. exact CR.
           ++ apply Skip. intros [(s' & m' & c' & A & B)|[(c' & r' & A)|[A|A]]]; congruence.
        -- apply Skip. intros [(s' & m' & c' & A & B)|[(c' & r' & A)|[A|A]]]; congruence.
Qed.

(** ** All new ids are different *)
Lemma new_ids_exact ops : d_ids_issued (snd (drun ops)) <= ID_MAX ->
  forall h, snd (drun ops) = h -> new_ids h = map Z.of_nat (rev (seq 1 (Z.to_nat (d_ids_issued h)))).
Proof.
  induction ops as [|o ops IH] using rev_ind; intros Hmax h <-; [reflexivity|].
  pose proof (drun_snoc ops o) as Hsn. pose proof (drun_inv ops) as J.
  rewrite Hsn in *. cbn [snd] in *. destruct (drun ops) as [d h]. cbn [fst snd] in *.
  destruct (d_outcome_of _ _ o J) as (d' & r & Hst & Hr & H). rewrite Hst in *. cbn [snd] in *.
  pose proof (d_ids_issued_cons (o, r) h) as Hc.
  pose proof (Z.le_trans _ _ _ Hc Hmax) as Hm. specialize (IH Hm h eq_refl). pose proof (d_ids_issued_nonneg h) as Hnn.
  pose proof J as (_ & _ & C & T). specialize (T Hm). pose proof (dt_gen _ _ T) as Hg.
  assert (Q : match (match registers (o, r), invokes (o, r) with
       | Some (_, _, i), _ => [i]
       | _, Some (s, m, i, _) => if fresh s m h then [i] else []
       | _, _ => [] end) with [] => d_takes_id (o, r) h = false | [i] => d_takes_id (o, r) h = true /\ i = d_ids_issued h + 1 | _ => False end).
  { unfold d_takes_id. cbn [d_ids_issued] in Hmax. unfold d_takes_id in Hmax.
    destruct H; try reflexivity.
    - cbn [registers invokes invocation_for iv_request pyint_Z] in *. destruct (fresh s m h) eqn:F; [|reflexivity]. split; [reflexivity|].
      match goal with X : next_id _ = _ |- _ => rewrite next_id_fresh in X by lia; injection X as <- <- end. lia.
    - cbn [registers invokes invocation_for iv_request pyint_Z] in *. destruct (fresh s m h) eqn:F; [|reflexivity].
      unfold fresh in F. match goal with X : wants _ _ = true |- _ => rewrite X in F end. rewrite <- (dc_open _ _ C) in F.
      match goal with X : zzget _ _ = _ |- _ => rewrite X in F end. discriminate.
    - cbn [registers invokes rd_registration pyint_Z] in *. split; [reflexivity|].
      match goal with X : next_id _ = _ |- _ => rewrite next_id_fresh in X by lia; injection X as <- <- end. lia.
    - destruct m; try reflexivity; contradiction. }
  cbn [new_ids d_ids_issued]. destruct (match registers (o, r), invokes (o, r) with
       | Some (_, _, i), _ => [i]
       | _, Some (s, m, i, _) => if fresh s m h then [i] else []
       | _, _ => [] end) as [|i [|]]; [| |destruct Q].
  - rewrite Q, Z.add_0_r. exact IH.
  - destruct Q as [-> ->]. replace (Z.to_nat (d_ids_issued h + 1)) with (S (Z.to_nat (d_ids_issued h))) by lia.
    rewrite seq_S, rev_app_distr. cbn [rev app map]. f_equal; [lia|exact IH].
Qed.
Lemma new_ids_distinct ops : d_ids_issued (snd (drun ops)) <= ID_MAX -> NoDup (new_ids (snd (drun ops))).
Proof.
  intros H. rewrite (new_ids_exact ops H _ eq_refl). apply FinFun.Injective_map_NoDup; [intros a b; lia|].
  apply NoDup_rev. apply seq_NoDup.
Qed.

Lemma call_payload ops s m iv c : let (d, h) := drun ops in
  danswer d (DMsg s (Call m)) = DRouted (mkRouted (Invocation iv) c) ->
  iv_args iv = ca_args m /\ iv_kwargs iv = ca_kwargs m /\ bp_serializer (iv_bin iv) = bp_serializer (ca_bin m) /\
  bp_payload (iv_bin iv) = bp_payload (ca_bin m) /\ bp_binary (iv_bin iv) = false.
Proof.
  start ops d h J. destruct (d_outcome_of _ _ (DMsg s (Call m)) J) as (d' & r & Hst & -> & H). intros ->.
  inversion H; try subst d'; subst; repeat split.
Qed.

Lemma yield_from_invoked ops s m r : let (d, h) := drun ops in danswer d (DMsg s (Yield m)) = DRouted r ->
  exists e caller c, In e h /\ invokes e = Some (caller, c, pyint_Z (yi_request m), s).
Proof.
  pose proof (yield_only_from_callee ops s m r) as H. destruct (drun ops) as [d h]. intros Hr.
  destruct (H Hr) as (w & res & U & <- & _). apply unanswered_meaning in U.
  destruct U as (n & e & o & s0 & m0 & c & -> & A & _ & -> & _). exists e, s0, m0. split; [apply in_app_iff; right; left; reflexivity|exact A].
Qed.
