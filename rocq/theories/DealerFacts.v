(** * DealerFacts: invariants of the dealer and their consequences. *)
From Coq Require Import String Ascii List ZArith Bool Lia Arith.
From Verif Require Import PyBase Messages IdGen IdGenFacts Joiner DictFacts SpecHistory Broker BrokerFacts Dealer SpecDealer DealerRun.
Import ListNotations.
Local Open Scope Z_scope.

Definition dat (d : dealer) l := nth_error (d_heap d) l.

(** ** Invariant, part 1: shape of the registration tables (no bound). *)
Record DShape (d : dealer) : Prop := {
  ds_proc : forall p l, tget p (d_by_procedure d) = Some l ->
    exists reg s, dat d l = Some reg /\ reg_procedure reg = p /\ reg_registrants reg = [(s, s)];
  ds_live : forall l reg, dat d l = Some reg -> reg_registrants reg <> [] ->
    tget (reg_procedure reg) (d_by_procedure d) = Some l;
  ds_one : forall l reg, dat d l = Some reg -> reg_registrants reg = [] \/ exists s, reg_registrants reg = [(s, s)];
  ds_nd : NoDup (map fst (d_by_procedure d)) }.

Record DOwn (d : dealer) : Prop := {
  do_own : forall s m i l, zget s (d_by_session d) = Some m -> zget i m = Some l ->
    exists reg, dat d l = Some reg /\ reg_id reg = i /\ reg_registrants reg = [(s, s)];
  do_nd_session : NoDup (map fst (d_by_session d));
  do_nd_own : forall s m, zget s (d_by_session d) = Some m -> NoDup (map fst m) }.

Record DSess (d : dealer) : Prop := {
  de_same : forall s, zmem s (d_sessions d) = zmem s (d_by_session d);
  de_nd : NoDup (map fst (d_sessions d));
  de_pending : NoDup (map fst (d_pending d));
  de_calls : NoDup (map fst (d_call_ids d)) }.

Definition DInv1 d := DShape d /\ DOwn d /\ DSess d.

Definition freed (reg : registration) : registration := mkReg (reg_id reg) (reg_procedure reg) [].

(** Emptying the registration at [l]. *)
Lemma free_shape d l reg s : DShape d -> dat d l = Some reg -> reg_registrants reg = [(s, s)] ->
  forall d', (forall l', dat d' l' = if Nat.eqb l' l then Some (freed reg) else dat d l') ->
  d_by_procedure d' = tdel (reg_procedure reg) (d_by_procedure d) -> DShape d'.
Proof.
  intros W Hl Hs d' Hat Hp.
  assert (Ht : tget (reg_procedure reg) (d_by_procedure d) = Some l) by (apply (ds_live _ W); [exact Hl|rewrite Hs; discriminate]).
  split; rewrite ?Hp.
  - intros p l0 H. unfold tget, tdel in H. rewrite (dget_ddel _ Seqb_ok) in H by exact (ds_nd _ W).
    destruct (String.eqb_spec p (reg_procedure reg)); [discriminate|].
    destruct (ds_proc _ W _ _ H) as (reg0 & s0 & A & B & C). rewrite Hat. destruct (Nat.eqb_spec l0 l) as [->|]; [congruence|].
    exists reg0, s0. auto.
  - intros l0 reg0 H Hne. rewrite Hat in H. destruct (Nat.eqb_spec l0 l) as [->|Hd].
    + injection H as <-. destruct Hne. reflexivity.
    + pose proof (ds_live _ W _ _ H Hne) as L. unfold tget, tdel. rewrite (dget_ddel _ Seqb_ok) by exact (ds_nd _ W).
      destruct (String.eqb_spec (reg_procedure reg0) (reg_procedure reg)) as [Q|]; [|exact L].
      rewrite Q in L. congruence.
  - intros l0 reg0 H. rewrite Hat in H. destruct (Nat.eqb_spec l0 l) as [->|]; [|exact (ds_one _ W _ _ H)].
    injection H as <-. left. reflexivity.
  - apply NoDup_ddel. exact (ds_nd _ W).
Qed.

Lemma tmem_get {V} p (t : list (string * V)) l : tget p t = Some l -> tmem p t = true.
Proof. intros H. unfold tmem, dmem. change (@dget string V String.eqb) with (@tget V). rewrite H. reflexivity. Qed.
Lemma single_mem s : zmem s [(s, s)] = true.
Proof. cbn. unfold zmem, dmem. cbn. rewrite Z.eqb_refl. reflexivity. Qed.
Lemma single_del s : @zdel Z s [(s, s)] = [].
Proof. unfold zdel. cbn. rewrite Z.eqb_refl. reflexivity. Qed.

Lemma d_remove_all_ok sid ls : forall d, DShape d -> NoDup (map fst ls) ->
  (forall i l, In (i, l) ls -> exists reg, dat d l = Some reg /\ reg_id reg = i /\ reg_registrants reg = [(sid, sid)]) ->
  exists d', d_remove_all sid d ls = (d', Ok tt) /\ DShape d' /\
    d_by_session d' = d_by_session d /\ d_sessions d' = d_sessions d /\ d_idgen d' = d_idgen d /\
    d_pending d' = d_pending d /\ d_call_ids d' = d_call_ids d /\
    (forall l, dat d' l = if in_dec Nat.eq_dec l (map snd ls) then option_map freed (dat d l) else dat d l).
Proof.
  induction ls as [|[i l] ls IH]; intros d W Hnd Hls.
  - exists d. cbn. repeat split; auto; apply W.
  - cbn [d_remove_all]. destruct (Hls i l (or_introl eq_refl)) as (reg & Hl & Hi & Hs).
    assert (Ht : tget (reg_procedure reg) (d_by_procedure d) = Some l)
      by (apply (ds_live _ W); [exact Hl|rewrite Hs; discriminate]).
    unfold d_remove_one. unfold dat in Hl. rewrite Hl, Ht, Hl, Hs, single_mem, single_del. cbn [reg_registrants reg_procedure].
    cbn [set_dheap d_by_procedure]. rewrite (tmem_get _ _ _ Ht).
    set (d1 := set_dproc _ _).
    assert (H1 : forall l', dat d1 l' = if Nat.eqb l' l then Some (freed reg) else dat d l')
      by (intros l'; apply (nth_put _ _ _ _ reg); exact Hl).
    assert (W1 : DShape d1) by (apply (free_shape d l reg sid W Hl Hs d1 H1); reflexivity).
    cbn [map fst] in Hnd. apply NoDup_cons_iff in Hnd. destruct Hnd as [Hni Hnd].
    assert (Hfresh : forall i' l', In (i', l') ls -> l' <> l).
    { intros i' l' Hin ->. destruct (Hls i' l (or_intror Hin)) as (reg2 & A & B & _).
      unfold dat in A. rewrite Hl in A. injection A as <-. subst i' i. apply Hni. apply in_map_iff.
      exists (reg_id reg, l). auto. }
    assert (Hl1 : forall i' l', In (i', l') ls ->
              exists reg0, dat d1 l' = Some reg0 /\ reg_id reg0 = i' /\ reg_registrants reg0 = [(sid, sid)]).
    { intros i' l' Hin. rewrite H1. destruct (Nat.eqb_spec l' l) as [E|]; [destruct (Hfresh _ _ Hin E)|].
      apply (Hls i' l'). right. exact Hin. }
    destruct (IH d1 W1 Hnd Hl1) as (d2 & R2 & W2 & F1 & F2 & F3 & F4 & F5 & H2).
    exists d2. split; [exact R2|]. split; [exact W2|]. repeat (split; [assumption|]).
    intros l'. rewrite H2, H1. cbn [map snd].
    destruct (in_dec Nat.eq_dec l' (map snd ls)) as [Hin|Hnin]; destruct (in_dec Nat.eq_dec l' (l :: map snd ls)) as [Hin'|Hnin'].
    + destruct (Nat.eqb_spec l' l) as [->|]; [|reflexivity]. apply in_map_iff in Hin.
      destruct Hin as ([i' l''] & Q & Hin). cbn in Q. subst l''. destruct (Hfresh _ _ Hin eq_refl).
    + destruct Hnin'. right. exact Hin.
    + destruct Hin' as [<-|]; [|tauto]. rewrite Nat.eqb_refl. unfold dat. rewrite Hl. reflexivity.
    + destruct (Nat.eqb_spec l' l) as [->|]; [|reflexivity]. destruct Hnin'. left. reflexivity.
Qed.

(** ** What one call does, in a state of the right shape. *)
Definition call_details (m : call) : dict :=
  ((if wants "receive_progress" (ca_options m) then [(VStr "receive_progress", VBool true)] else []) ++
   (if wants "progress" (ca_options m) then [(VStr "progress", VBool true)] else []))%list.
Definition invocation_for (m : call) (i g : Z) : message :=
  Invocation (mkInvocation (PyInt i) (PyInt g) (ca_args m) (ca_kwargs m) (call_details m)
    (mkBin (bp_serializer (ca_bin m)) (bp_payload (ca_bin m)) false)).
Definition opt o (d : dict) := sget_default o (VBool false) d.

Inductive doutcome (d : dealer) : dop -> dealer -> dout -> Prop :=
| dp_join det : zget (pyint_Z (det_session det)) (d_by_session d) = None ->
    doutcome d (DJoin det)
      (set_dsessions (set_dsession d (zset (pyint_Z (det_session det)) [] (d_by_session d)))
         (zset (pyint_Z (det_session det)) det (d_sessions d))) DDone
| dp_join_bad det : zmem (pyint_Z (det_session det)) (d_by_session d) = true ->
    doutcome d (DJoin det) d (DExn (ValueError ["cannot add session twice"%string]))
| dp_leave s own d' : zget s (d_by_session d) = Some own -> DShape d' ->
    d_by_session d' = zdel s (d_by_session d) -> d_sessions d' = zdel s (d_sessions d) -> d_idgen d' = d_idgen d ->
    d_pending d' = d_pending d -> d_call_ids d' = d_call_ids d ->
    (forall l, dat d' l = if in_dec Nat.eq_dec l (map snd own) then option_map freed (dat d l) else dat d l) ->
    doutcome d (DLeave s) d' DDone
| dp_leave_bad s : zget s (d_by_session d) = None ->
    doutcome d (DLeave s) d (DExn (ValueError ["cannot remove non-existing session"%string]))
| dp_call_none s m : tget (ca_procedure m) (d_by_procedure d) = None ->
    doutcome d (DMsg s (Call m)) d
      (DRouted (mkRouted (Error (mkError (PyInt 48) (ca_request m) "wamp.error.no_such_procedure" None None [])) s))
| dp_call_fresh s m l reg c g id : tget (ca_procedure m) (d_by_procedure d) = Some l -> dat d l = Some reg ->
    reg_procedure reg = ca_procedure m -> reg_registrants reg = [(c, c)] ->
    (wants "progress" (ca_options m) = true -> zzget (s, pyint_Z (ca_request m)) (d_call_ids d) = None) ->
    next_id (d_idgen d) = (g, id) ->
    doutcome d (DMsg s (Call m))
      (add_call (set_didgen d g) (ca_request m) id s c (opt OPTION_PROGRESS (ca_options m)) (opt OPTION_RECEIVE_PROGRESS (ca_options m)))
      (DRouted (mkRouted (invocation_for m id (reg_id reg)) c))
| dp_call_chunk s m l reg c id : tget (ca_procedure m) (d_by_procedure d) = Some l -> dat d l = Some reg ->
    reg_procedure reg = ca_procedure m -> reg_registrants reg = [(c, c)] ->
    wants "progress" (ca_options m) = true -> zzget (s, pyint_Z (ca_request m)) (d_call_ids d) = Some id ->
    doutcome d (DMsg s (Call m)) d (DRouted (mkRouted (invocation_for m id (reg_id reg)) c))
| dp_yield_bad s m e : (forall inv, zget (pyint_Z (yi_request m)) (d_pending d) = Some inv -> pi_callee inv <> s) ->
    doutcome d (DMsg s (Yield m)) d (DExn (ValueError [e]))
| dp_yield_more s m inv v : zget (pyint_Z (yi_request m)) (d_pending d) = Some inv -> pi_callee inv = s ->
    sget "progress" (yi_options m) = Some v -> truthy v = true -> truthy (pi_receive_progress inv) = true ->
    doutcome d (DMsg s (Yield m)) d
      (DRouted (mkRouted (Result (mkResult (pi_request inv) (yi_args m) (yi_kwargs m) [(VStr "progress", v)] no_payload))
                  (pi_caller inv)))
| dp_yield_last s m inv : zget (pyint_Z (yi_request m)) (d_pending d) = Some inv -> pi_callee inv = s ->
    wants "progress" (yi_options m) && truthy (pi_receive_progress inv) = false ->
    zzmem (pi_caller inv, pyint_Z (pi_request inv)) (d_call_ids d) = true ->
    doutcome d (DMsg s (Yield m))
      (set_dcalls (set_dpending d (zdel (pyint_Z (yi_request m)) (d_pending d)))
         (zzdel (pi_caller inv, pyint_Z (pi_request inv)) (d_call_ids d)))
      (DRouted (mkRouted (Result (mkResult (pi_request inv) (yi_args m) (yi_kwargs m) [] no_payload)) (pi_caller inv)))
| dp_yield_crash s m inv : zget (pyint_Z (yi_request m)) (d_pending d) = Some inv -> pi_callee inv = s ->
    wants "progress" (yi_options m) && truthy (pi_receive_progress inv) = false ->
    zzmem (pi_caller inv, pyint_Z (pi_request inv)) (d_call_ids d) = false ->
    doutcome d (DMsg s (Yield m)) (set_dpending d (zdel (pyint_Z (yi_request m)) (d_pending d))) (DExn KeyError)
| dp_reg_bad s m e : zget s (d_by_session d) = None -> doutcome d (DMsg s (Register m)) d (DExn (ValueError [e]))
| dp_reg_held s m own l : zget s (d_by_session d) = Some own -> tget (rg_procedure m) (d_by_procedure d) = Some l ->
    doutcome d (DMsg s (Register m)) d
      (DRouted (mkRouted (Error (mkError (PyInt 64) (rg_request m) "wamp.error.procedure_already_exists" None None [])) s))
| dp_reg s m own g id : zget s (d_by_session d) = Some own -> tget (rg_procedure m) (d_by_procedure d) = None ->
    next_id (d_idgen d) = (g, id) ->
    doutcome d (DMsg s (Register m))
      (mkDealer (d_heap d ++ [mkReg id (rg_procedure m) [(s, s)]])
         (tset (rg_procedure m) (length (d_heap d)) (d_by_procedure d))
         (zset s (zset id (length (d_heap d)) own) (d_by_session d)) (d_pending d) (d_call_ids d) (d_sessions d) g)
      (DRouted (mkRouted (Registered (mkRegistered (rg_request m) (PyInt id))) s))
| dp_unreg_bad s m e : (forall own, zget s (d_by_session d) = Some own -> zget (pyint_Z (ur_registration m)) own = None) ->
    doutcome d (DMsg s (Unregister m)) d (DExn (ValueError [e]))
| dp_unreg s m own l reg d' : zget s (d_by_session d) = Some own ->
    zget (pyint_Z (ur_registration m)) own = Some l -> dat d l = Some reg ->
    reg_id reg = pyint_Z (ur_registration m) -> reg_registrants reg = [(s, s)] -> DShape d' ->
    d_by_session d' = zset s (zdel (pyint_Z (ur_registration m)) own) (d_by_session d) ->
    d_sessions d' = d_sessions d -> d_idgen d' = d_idgen d -> d_pending d' = d_pending d -> d_call_ids d' = d_call_ids d ->
    (forall l', dat d' l' = if Nat.eqb l' l then Some (freed reg) else dat d l') ->
    doutcome d (DMsg s (Unregister m)) d' (DRouted (mkRouted (Unregistered (mkUnregistered (ur_request m))) s))
| dp_err_bad s m e : (pyint_Z (er_type m) = 68 -> zget (pyint_Z (er_request m)) (d_pending d) = None) ->
    doutcome d (DMsg s (Error m)) d (DExn (ValueError [e]))
| dp_err s m inv : pyint_Z (er_type m) = 68 -> zget (pyint_Z (er_request m)) (d_pending d) = Some inv ->
    doutcome d (DMsg s (Error m)) (set_dpending d (zdel (pyint_Z (er_request m)) (d_pending d)))
      (DRouted (mkRouted (Error (mkError (PyInt 48) (pi_request inv) (er_uri m) (er_args m) (er_kwargs m) (er_details m)))
                  (pi_caller inv)))
| dp_other s m : match m with Call _ | Yield _ | Register _ | Unregister _ | Error _ => False | _ => True end ->
    doutcome d (DMsg s m) d (DExn (ValueError ["message type not supported"%string])).

Lemma opt_wants o d : truthy (opt o d) = wants o d.
Proof. unfold opt, wants, sget_default. destruct (sget o d); reflexivity. Qed.

Lemma DShape_sets d d' : d_heap d' = d_heap d -> d_by_procedure d' = d_by_procedure d -> DShape d -> DShape d'.
Proof. intros E1 E2 [A B C D]. unfold dat in *. split; unfold dat; rewrite ?E1, ?E2; assumption. Qed.

Lemma dstep_outcome d o : DInv1 d -> doutcome d o (fst (dstep d o)) (snd (dstep d o)).
Proof.
  intros (W & O & S). destruct o as [det|s|s m]; cbn [dstep].
  - unfold d_add_session. destruct (zmem _ _) eqn:M; cbn [fst snd d_out_of bad].
    + apply dp_join_bad. exact M.
    + apply dp_join. apply (dmem_false _). exact M.
  - unfold d_remove_session. destruct (zget s (d_by_session d)) as [own|] eqn:G; cbn [fst snd d_out_of bad];
      [|apply dp_leave_bad; exact G].
    set (d0 := set_dsession d (zdel s (d_by_session d))).
    assert (W0 : DShape d0) by (apply (DShape_sets d); auto).
    assert (H0 : forall i l, In (i, l) own -> exists reg, dat d0 l = Some reg /\ reg_id reg = i /\ reg_registrants reg = [(s, s)]).
    { intros i l Hin. apply (do_own _ O s own); [exact G|]. apply (In_dget _ Zeqb_ok); [exact (do_nd_own _ O _ _ G)|exact Hin]. }
    destruct (d_remove_all_ok s own d0 W0 (do_nd_own _ O _ _ G) H0) as (d1 & R & W1 & E1 & E2 & E3 & E4 & E5 & H1).
    rewrite R. rewrite E2. cbn [d0 set_dsession d_sessions]. rewrite (de_same _ S), zmem_zget, G.
    cbn [fst snd d_out_of]. eapply dp_leave; [exact G| |exact E1|reflexivity|exact E3|exact E4|exact E5|exact H1].
    apply (DShape_sets d1); auto.
  - destruct m; cbn [d_receive_message]; try (cbn [fst snd d_out_of bad]; apply dp_other; exact Logic.I).
    + (* ERROR *) unfold d_error. change T_INVOCATION with 68. destruct (Z.eqb_spec (pyint_Z (er_type m)) 68) as [E|E]; cbn [negb].
      * destruct (zget _ _) as [inv|] eqn:G; cbn [fst snd d_out_of bad]; [apply dp_err; assumption|apply dp_err_bad; auto].
      * cbn [fst snd d_out_of bad]. apply dp_err_bad. tauto.
    + (* CALL *) unfold d_call. destruct (tget (ca_procedure m) (d_by_procedure d)) as [l|] eqn:T;
        [|cbn [fst snd d_out_of]; apply dp_call_none; exact T].
      destruct (ds_proc _ W _ _ T) as (reg & c & A & B & C). unfold dat in A. rewrite A, C.
      fold (opt OPTION_RECEIVE_PROGRESS (ca_options m)). fold (opt OPTION_PROGRESS (ca_options m)). rewrite !opt_wants.
      destruct (next_id (d_idgen d)) as [g id] eqn:N.
      destruct (wants OPTION_PROGRESS (ca_options m)) eqn:P.
      * destruct (zzget (s, pyint_Z (ca_request m)) (d_call_ids d)) as [id0|] eqn:K; cbn [fst snd d_out_of].
        -- replace (_ ++ [(VStr OPTION_PROGRESS, VBool true)])%list with (call_details m)
             by (unfold call_details; change "progress"%string with OPTION_PROGRESS; rewrite P; reflexivity).
           exact (dp_call_chunk d s m l reg c id0 T A B C P K).
        -- replace (_ ++ [(VStr OPTION_PROGRESS, VBool true)])%list with (call_details m)
             by (unfold call_details; change "progress"%string with OPTION_PROGRESS; rewrite P; reflexivity).
           exact (dp_call_fresh d s m l reg c g id T A B C (fun _ => K) N).
      * cbn [fst snd d_out_of].
        replace (_ ++ [])%list with (call_details m)
             by (unfold call_details; change "progress"%string with OPTION_PROGRESS; rewrite P; reflexivity).
        refine (dp_call_fresh d s m l reg c g id T A B C _ N).
        change "progress"%string with OPTION_PROGRESS. rewrite P. discriminate.
    + (* REGISTER *) unfold d_register. destruct (zget s (d_by_session d)) as [own|] eqn:G;
        [|cbn [fst snd d_out_of bad]; apply dp_reg_bad; exact G].
      destruct (tget (rg_procedure m) (d_by_procedure d)) as [l|] eqn:T.
      * cbn [fst snd d_out_of]. eapply dp_reg_held; eauto.
      * destruct (next_id (d_idgen d)) as [g id] eqn:N. cbn [fst snd d_out_of]. exact (dp_reg d s m own g id G T N).
    + (* UNREGISTER *) unfold d_unregister. destruct (zget s (d_by_session d)) as [own|] eqn:G;
        [|cbn [fst snd d_out_of bad]; apply dp_unreg_bad; congruence].
      destruct (zget (pyint_Z (ur_registration m)) own) as [l|] eqn:L;
        [|cbn [fst snd d_out_of bad]; apply dp_unreg_bad; congruence].
      destruct (do_own _ O _ _ _ _ G L) as (reg & A & B & C). unfold dat in A. rewrite A, C, single_mem, single_del. cbn [negb reg_registrants].
      assert (Ht : tget (reg_procedure reg) (d_by_procedure d) = Some l) by (apply (ds_live _ W); [exact A|rewrite C; discriminate]).
      cbn [set_dsession set_dheap d_by_procedure d_by_session reg_procedure]. rewrite (tmem_get _ _ _ Ht). cbn [fst snd d_out_of].
      set (d1 := set_dproc _ _).
      assert (H1 : forall l', dat d1 l' = if Nat.eqb l' l then Some (freed reg) else dat d l')
        by (intros l'; apply (nth_put _ _ _ _ reg); exact A).
      eapply dp_unreg; try eassumption; try reflexivity.
      apply (free_shape d l reg s W A C d1 H1). reflexivity.
    + (* YIELD *) unfold d_yield. destruct (zget (pyint_Z (yi_request m)) (d_pending d)) as [inv|] eqn:G;
        [|cbn [fst snd d_out_of bad]; apply dp_yield_bad; congruence].
      destruct (Z.eqb_spec s (pi_callee inv)) as [E|E]; cbn [negb]; [|cbn [fst snd d_out_of bad]; apply dp_yield_bad; congruence].
      fold (opt OPTION_PROGRESS (yi_options m)). rewrite opt_wants.
      destruct (wants OPTION_PROGRESS (yi_options m) && truthy (pi_receive_progress inv)) eqn:P.
      * cbn [fst snd d_out_of]. apply andb_true_iff in P. destruct P as [P1 P2]. unfold opt, sget_default. unfold wants in P1.
        change OPTION_PROGRESS with "progress"%string in *.
        destruct (sget "progress" (yi_options m)) as [v|] eqn:V; [|discriminate]. eapply dp_yield_more; eauto.
      * cbn [set_dpending d_call_ids]. destruct (zzmem _ _) eqn:K; cbn [fst snd d_out_of].
        -- apply (dp_yield_last d s m inv G); auto.
        -- apply (dp_yield_crash d s m inv G); auto.
Qed.

(** ** The invariant is kept. *)
Lemma zzget_zzset {V} k v (d : list (Z * Z * V)) k' : zzget k' (zzset k v d) = if zz_eqb k' k then Some v else zzget k' d.
Proof. apply (dget_dset _ zz_eqb_ok). Qed.
Lemma zzget_zzdel {V} k (d : list (Z * Z * V)) k' : NoDup (map fst d) ->
  zzget k' (zzdel k d) = if zz_eqb k' k then None else zzget k' d.
Proof. apply (dget_ddel _ zz_eqb_ok). Qed.
Lemma zzmem_zzget {V} k (d : list (Z * Z * V)) : zzmem k d = match zzget k d with Some _ => true | None => false end.
Proof. reflexivity. Qed.

Lemma DOwn_sets d d' : d_heap d' = d_heap d -> d_by_session d' = d_by_session d -> DOwn d -> DOwn d'.
Proof. intros E1 E2 [A B C]. unfold dat in *. split; unfold dat; rewrite ?E1, ?E2; assumption. Qed.

Lemma dat_len d l reg : dat d l = Some reg -> Nat.eqb l (length (d_heap d)) = false.
Proof.
  intros A. apply Nat.eqb_neq. intros ->. unfold dat in A.
  assert (nth_error (d_heap d) (length (d_heap d)) = None) by (apply nth_error_None; lia). congruence.
Qed.

Lemma DShape_step d o d' r : DInv1 d -> doutcome d o d' r -> DShape d'.
Proof.
  intros (W & O & S) H. destruct H; try exact W; try assumption; try (apply (DShape_sets d); [reflexivity|reflexivity|exact W]).
  split; unfold dat; cbn [d_heap d_by_procedure].
  - intros p l T. rewrite tget_tset in T. rewrite nth_snoc. destruct (String.eqb_spec p (rg_procedure m)) as [->|].
    + injection T as <-. rewrite Nat.eqb_refl. eexists _, s. split; [reflexivity|]. auto.
    + destruct (ds_proc _ W _ _ T) as (reg & s0 & A & B & C). rewrite (dat_len _ _ _ A). unfold dat in A. eauto.
  - intros l reg A Hne. rewrite nth_snoc in A. rewrite tget_tset. destruct (Nat.eqb l (length (d_heap d))) eqn:E.
    + injection A as <-. cbn. rewrite String.eqb_refl. apply Nat.eqb_eq in E. congruence.
    + pose proof (ds_live _ W _ _ A Hne) as L. destruct (String.eqb_spec (reg_procedure reg) (rg_procedure m)) as [Q|]; [|exact L].
      rewrite Q in L. congruence.
  - intros l reg A. rewrite nth_snoc in A. destruct (Nat.eqb l (length (d_heap d))) eqn:E; [|exact (ds_one _ W _ _ A)].
    injection A as <-. right. exists s. reflexivity.
  - apply (NoDup_dset _ Seqb_ok). exact (ds_nd _ W).
Qed.

Lemma DOwn_step d o d' r : DInv1 d -> doutcome d o d' r -> DOwn d'.
Proof.
  intros (W & O & S) H. destruct H; try exact O; try (apply (DOwn_sets d); [reflexivity|reflexivity|exact O]).
  - (* join *) split; unfold dat; cbn [set_dsessions set_dsession d_heap d_by_session].
    + intros s m i l H1 H2. rewrite zget_zset in H1. destruct (s =? _); [injection H1 as <-; discriminate|].
      exact (do_own _ O _ _ _ _ H1 H2).
    + apply (NoDup_dset _ Zeqb_ok). exact (do_nd_session _ O).
    + intros s m H1. rewrite zget_zset in H1. destruct (s =? _); [injection H1 as <-; constructor|].
      exact (do_nd_own _ O _ _ H1).
  - (* leave *) split; rewrite H1.
    + intros s' m i l G1 G2. rewrite zget_zdel in G1 by exact (do_nd_session _ O). destruct (Z.eqb_spec s' s) as [|Hn]; [discriminate|].
      destruct (do_own _ O _ _ _ _ G1 G2) as (reg & A & B & C).
      match goal with X : forall l, dat d' l = _ |- _ => rewrite X, A end.
      destruct (in_dec _ _ _) as [Hin|]; [|eauto]. apply in_map_iff in Hin. destruct Hin as ([i2 l2] & Q & Hin). cbn in Q. subst l2.
      destruct (do_own _ O s own i2 l H) as (reg2 & A2 & B2 & C2).
      { apply (In_dget _ Zeqb_ok); [exact (do_nd_own _ O _ _ H)|exact Hin]. }
      congruence.
    + apply (NoDup_ddel _ ). exact (do_nd_session _ O).
    + intros s' m G1. rewrite zget_zdel in G1 by exact (do_nd_session _ O). destruct (s' =? s); [discriminate|].
      exact (do_nd_own _ O _ _ G1).
  - (* register *) split; unfold dat; cbn [d_heap d_by_session].
    + intros s' m' i l G1 G2. rewrite zget_zset in G1. rewrite nth_snoc.
      destruct (Z.eqb_spec s' s) as [->|].
      * injection G1 as <-. rewrite zget_zset in G2. destruct (Z.eqb_spec i id) as [->|].
        -- injection G2 as <-. rewrite Nat.eqb_refl. eexists. split; [reflexivity|]. cbn. auto.
        -- destruct (do_own _ O _ _ _ _ H G2) as (reg & A & B & C). rewrite (dat_len _ _ _ A). eauto.
      * destruct (do_own _ O _ _ _ _ G1 G2) as (reg & A & B & C). rewrite (dat_len _ _ _ A). eauto.
    + apply (NoDup_dset _ Zeqb_ok). exact (do_nd_session _ O).
    + intros s' m' G1. rewrite zget_zset in G1. destruct (s' =? s); [|exact (do_nd_own _ O _ _ G1)].
      injection G1 as <-. apply (NoDup_dset _ Zeqb_ok). exact (do_nd_own _ O _ _ H).
  - (* unregister *)
    match goal with X : d_by_session d' = _, Y : forall l', dat d' l' = _ |- _ => rename X into Hs; rename Y into Hat end.
    split; rewrite Hs.
    + intros s' m' i l' G1 G2. rewrite zget_zset in G1. rewrite Hat. destruct (Z.eqb_spec s' s) as [->|Hn].
      * injection G1 as <-. rewrite zget_zdel in G2 by exact (do_nd_own _ O _ _ H).
        destruct (Z.eqb_spec i (pyint_Z (ur_registration m))) as [|Hi]; [discriminate|].
        destruct (do_own _ O _ _ _ _ H G2) as (reg2 & A & B & C). destruct (Nat.eqb_spec l' l) as [->|]; [congruence|eauto].
      * destruct (do_own _ O _ _ _ _ G1 G2) as (reg2 & A & B & C). destruct (Nat.eqb_spec l' l) as [->|]; [congruence|eauto].
    + apply (NoDup_dset _ Zeqb_ok). exact (do_nd_session _ O).
    + intros s' m' G1. rewrite zget_zset in G1. destruct (s' =? s); [|exact (do_nd_own _ O _ _ G1)].
      injection G1 as <-. apply NoDup_ddel. exact (do_nd_own _ O _ _ H).
Qed.

Lemma DSess_step d o d' r : DInv1 d -> doutcome d o d' r -> DSess d'.
Proof.
  intros (W & O & S) H. destruct S as [A B C D].
  destruct H; try (split; assumption);
    try (split; cbn [add_call set_dcalls set_dpending set_didgen d_by_session d_sessions d_pending d_call_ids]; try assumption;
         first [apply (NoDup_dset _ Zeqb_ok)|apply (NoDup_dset _ zz_eqb_ok)|apply NoDup_ddel]; assumption).
  - split; try assumption; cbn [set_dsessions set_dsession d_by_session d_sessions].
    + intros s. rewrite !zmem_zget, !zget_zset. destruct (s =? _); [reflexivity|]. rewrite <- !zmem_zget. apply A.
    + apply (NoDup_dset _ Zeqb_ok). exact B.
  - split; try congruence.
    + intros s'. rewrite H1, H2, !zmem_zget, !zget_zdel by (exact B || exact (do_nd_session _ O)).
      destruct (s' =? s); [reflexivity|]. rewrite <- !zmem_zget. apply A.
    + rewrite H2. apply NoDup_ddel. exact B.
  - split; try assumption; cbn [d_by_session d_sessions].
    intros s'. rewrite A, !zmem_zget, zget_zset. destruct (Z.eqb_spec s' s) as [->|]; [rewrite H|]; reflexivity.
  - split; try congruence.
    + intros s'. rewrite H5, H6, A, !zmem_zget, zget_zset. destruct (Z.eqb_spec s' s) as [->|]; [rewrite H|]; reflexivity.
Qed.

Lemma DInv1_step d o d' r : DInv1 d -> doutcome d o d' r -> DInv1 d'.
Proof. intros I H. split; [|split]; [eapply DShape_step|eapply DOwn_step|eapply DSess_step]; eauto. Qed.
Lemma DInv1_init : DInv1 dealer_init.
Proof.
  split; [|split]; split; unfold dat; cbn; try constructor; try discriminate; try reflexivity;
    try (intros [|?]; discriminate); intros; match goal with X : nth_error [] ?l = Some _ |- _ => destruct l; discriminate end.
Qed.

Lemma d_member_step d o d' r h : doutcome d o d' r -> DInv1 d -> (forall s, zmem s (d_by_session d) = d_member s h) ->
  forall s, zmem s (d_by_session d') = d_member s ((o, r) :: h).
Proof.
  intros H (W & O & S) M s0. unfold d_member. cbn [since]. fold (d_member s0 h). specialize (M s0).
  destruct H; try exact M; cbn [d_joins d_leaves d_left].
  - rewrite zmem_zget. cbn [set_dsessions set_dsession d_by_session]. rewrite zget_zset, Z.eqb_sym. destruct (_ =? _); [reflexivity|].
    rewrite <- zmem_zget. exact M.
  - rewrite zmem_zget, H1, zget_zdel by exact (do_nd_session _ O). rewrite Z.eqb_sym. destruct (s =? s0); [reflexivity|].
    rewrite <- zmem_zget. exact M.
  - rewrite zmem_zget. cbn [d_by_session]. rewrite zget_zset. rewrite <- M, zmem_zget.
    destruct (Z.eqb_spec s0 s) as [->|]; [rewrite H|]; reflexivity.
  - rewrite zmem_zget, H5, zget_zset. rewrite <- M, zmem_zget. destruct (Z.eqb_spec s0 s) as [->|]; [rewrite H|]; reflexivity.
Qed.

(** ** Pending invocations and open calls (no bound). *)
Definition view (inv : pending_invocation) : waiting :=
  mkWaiting (pi_caller inv) (pi_request inv) (pi_callee inv) (truthy (pi_receive_progress inv)).
Record DCalls (d : dealer) (h : dhistory) : Prop := {
  dc_pending : forall i, option_map view (zget i (d_pending d)) = unanswered i h;
  dc_open : forall s r, zzget (s, r) (d_call_ids d) = open_call s r h }.

Lemma zz_eqb_andb a b c e : zz_eqb (a, b) (c, e) = (c =? a) && (e =? b).
Proof. unfold zz_eqb. cbn. rewrite (Z.eqb_sym c a), (Z.eqb_sym e b). reflexivity. Qed.

Lemma DCalls_quiet d d' o r h : d_pending d' = d_pending d -> d_call_ids d' = d_call_ids d ->
  invokes (o, r) = None -> results (o, r) = None -> fails (o, r) = None -> crashes (o, r) = None ->
  DCalls d h -> DCalls d' ((o, r) :: h).
Proof.
  intros E1 E2 A B C D [P Q]. split.
  - intros i. cbn [unanswered]. rewrite A, B, C, D, E1. apply P.
  - intros s r0. cbn [open_call]. rewrite A, B, E2. apply Q.
Qed.

Lemma DCalls_step d o d' r h : DInv1 d -> doutcome d o d' r -> DCalls d h -> DCalls d' ((o, r) :: h).
Proof.
  intros (_ & _ & S) H C.
  destruct H; try (apply (DCalls_quiet d); first [assumption|reflexivity]).
  - (* fresh call *)
    assert (F : fresh s m h = true).
    { unfold fresh. destruct (wants "progress" (ca_options m)) eqn:P; [|reflexivity]. cbn [negb orb].
      rewrite <- (dc_open _ _ C), H3 by reflexivity. reflexivity. }
    split.
    + intros i. cbn [unanswered invokes invocation_for iv_request pyint_Z]. cbn [add_call set_dcalls set_dpending d_pending].
      rewrite zget_zset, F, andb_true_r, Z.eqb_sym. destruct (id =? i).
      * cbn [option_map]. unfold view. cbn. rewrite opt_wants. reflexivity.
      * apply (dc_pending _ _ C).
    + intros s0 r0. cbn [open_call invokes invocation_for iv_request pyint_Z]. cbn [add_call set_dcalls set_dpending d_call_ids].
      rewrite zzget_zzset, zz_eqb_andb. destruct (_ && _); [reflexivity|]. apply (dc_open _ _ C).
  - (* chunk *)
    assert (F : fresh s m h = false).
    { unfold fresh. rewrite H3. cbn [negb orb]. rewrite <- (dc_open _ _ C), H4. reflexivity. }
    split.
    + intros i. cbn [unanswered invokes invocation_for iv_request pyint_Z]. rewrite F, andb_false_r. apply (dc_pending _ _ C).
    + intros s0 r0. cbn [open_call invokes invocation_for iv_request pyint_Z]. rewrite <- (dc_open _ _ C).
      destruct (Z.eqb_spec s s0) as [->|]; [|reflexivity]. destruct (Z.eqb_spec (pyint_Z (ca_request m)) r0) as [<-|]; [|reflexivity].
      exact H4.
  - (* progressive result *)
    split.
    + intros i. cbn [unanswered invokes results fails crashes re_details]. apply (dc_pending _ _ C).
    + intros s0 r0. cbn [open_call invokes results re_details]. apply (dc_open _ _ C).
  - (* last result *)
    split.
    + intros i. cbn [unanswered invokes results fails crashes re_details sget]. cbn [set_dcalls set_dpending d_pending].
      rewrite zget_zdel by exact (de_pending _ S). rewrite Z.eqb_sym. cbn [sget]. destruct (_ =? i); [reflexivity|].
      apply (dc_pending _ _ C).
    + intros s0 r0. cbn [open_call invokes results re_details re_dets sget re_request]. cbn [set_dcalls set_dpending d_call_ids].
      rewrite zzget_zzdel by exact (de_calls _ S). rewrite zz_eqb_andb.
      change (sget "progress" (re_details _)) with (@None val). cbn iota.
      destruct ((_ =? s0) && _); [reflexivity|]. apply (dc_open _ _ C).
  - (* crash *)
    split.
    + intros i. cbn [unanswered invokes results fails crashes]. cbn [set_dpending d_pending].
      rewrite zget_zdel by exact (de_pending _ S). rewrite Z.eqb_sym. destruct (_ =? i); [reflexivity|]. apply (dc_pending _ _ C).
    + intros s0 r0. cbn [open_call invokes results]. apply (dc_open _ _ C).
  - (* error *)
    split.
    + intros i. cbn [unanswered invokes results fails crashes]. cbn [set_dpending d_pending].
      rewrite zget_zdel by exact (de_pending _ S). rewrite Z.eqb_sym. destruct (_ =? i); [reflexivity|]. apply (dc_pending _ _ C).
    + intros s0 r0. cbn [open_call invokes results]. apply (dc_open _ _ C).
  - apply (DCalls_quiet d); try assumption; try reflexivity; destruct m; reflexivity || contradiction.
Qed.

(** ** Who holds a procedure (fewer than 2^53 ids). *)
Definition held (d : dealer) p : option (Z * Z) :=
  match tget p (d_by_procedure d) with
  | Some l => match dat d l with
              | Some reg => match reg_registrants reg with (s, _) :: _ => Some (s, reg_id reg) | [] => None end
              | None => None
              end
  | None => None
  end.
Lemma held_iff d p s i : DShape d -> held d p = Some (s, i) <->
  exists l reg, dat d l = Some reg /\ reg_procedure reg = p /\ reg_registrants reg = [(s, s)] /\ reg_id reg = i.
Proof.
  intros W. unfold held. split.
  - destruct (tget p (d_by_procedure d)) as [l|] eqn:T; [|discriminate]. destruct (ds_proc _ W _ _ T) as (reg & s0 & A & B & C).
    rewrite A, C. intros H. injection H as <- <-. exists l, reg. auto.
  - intros (l & reg & A & B & C & D). assert (L : tget (reg_procedure reg) (d_by_procedure d) = Some l)
      by (apply (ds_live _ W); [exact A|rewrite C; discriminate]).
    rewrite <- B, L, A, C, D. reflexivity.
Qed.
Lemma held_none d p : DShape d -> held d p = None <-> tget p (d_by_procedure d) = None.
Proof.
  intros W. unfold held. destruct (tget p (d_by_procedure d)) as [l|] eqn:T; [|tauto].
  destruct (ds_proc _ W _ _ T) as (reg & s0 & A & B & C). rewrite A, C. split; discriminate.
Qed.

Record DTrack (d : dealer) (h : dhistory) : Prop := {
  dt_gen : d_idgen d = d_ids_issued h;
  dt_ids : forall l reg, dat d l = Some reg -> 1 <= reg_id reg <= d_idgen d;
  dt_inj : forall l1 l2 r1 r2, dat d l1 = Some r1 -> dat d l2 = Some r2 -> reg_id r1 = reg_id r2 -> l1 = l2;
  dt_all : forall s l reg, dat d l = Some reg -> reg_registrants reg = [(s, s)] ->
    exists own, zget s (d_by_session d) = Some own /\ zget (reg_id reg) own = Some l;
  dt_held : forall p, held d p = holder p h;
  dt_seen : forall i, In i (ids_seen h) -> 1 <= i <= d_idgen d;
  dt_open : forall s r i, zzget (s, r) (d_call_ids d) = Some i -> 1 <= i <= d_idgen d;
  dt_pending : forall i inv, zget i (d_pending d) = Some inv -> 1 <= i <= d_idgen d }.

Lemma d_ids_issued_cons e h : d_ids_issued h <= d_ids_issued (e :: h).
Proof. cbn [d_ids_issued]. destruct (d_takes_id e h); lia. Qed.
Lemma d_ids_issued_nonneg h : 0 <= d_ids_issued h.
Proof. induction h as [|e h IH]; [reflexivity|]. pose proof (d_ids_issued_cons e h). lia. Qed.

Lemma option_ext {A} (x y : option A) : (forall a, x = Some a <-> y = Some a) -> x = y.
Proof.
  intros H. destruct x as [a|]; [symmetry; apply H; reflexivity|]. destruct y as [a|]; [|reflexivity].
  assert (@None A = Some a) by (apply H; reflexivity). discriminate.
Qed.

(** A call that changes neither registrations nor the id generator and hands out no id. *)
Lemma DTrack_quiet d d' o r h : DTrack d h ->
  d_heap d' = d_heap d -> d_by_procedure d' = d_by_procedure d -> d_by_session d' = d_by_session d -> d_idgen d' = d_idgen d ->
  registers (o, r) = None -> unregisters (o, r) = None -> d_left (o, r) = None -> invokes (o, r) = None ->
  (forall s r i, zzget (s, r) (d_call_ids d') = Some i -> zzget (s, r) (d_call_ids d) = Some i) ->
  (forall i inv, zget i (d_pending d') = Some inv -> zget i (d_pending d) = Some inv) ->
  DTrack d' ((o, r) :: h).
Proof.
  intros T E1 E2 E3 E4 A B C D F G.
  split; unfold held, dat in *; rewrite ?E1, ?E2, ?E3, ?E4.
  - rewrite (dt_gen _ _ T). cbn [d_ids_issued]. unfold d_takes_id. rewrite A, D. lia.
  - exact (dt_ids _ _ T).
  - exact (dt_inj _ _ T).
  - exact (dt_all _ _ T).
  - intros p. cbn [holder]. rewrite A, B, C. exact (dt_held _ _ T p).
  - intros i Hi. unfold ids_seen in Hi. cbn [flat_map] in Hi. rewrite A, D in Hi. exact (dt_seen _ _ T i Hi).
  - intros s r0 i Hi. exact (dt_open _ _ T _ _ _ (F _ _ _ Hi)).
  - intros i inv Hi. exact (dt_pending _ _ T _ _ (G _ _ Hi)).
Qed.

Lemma DTrack_step d o d' r h : DInv1 d -> DCalls d h -> doutcome d o d' r -> DTrack d h -> d_ids_issued ((o, r) :: h) <= ID_MAX ->
  DTrack d' ((o, r) :: h).
Proof.
  intros I C H T Hmax. pose proof (DShape_step _ _ _ _ I H) as W'. pose proof I as (W & O & S).
  pose proof (d_ids_issued_nonneg h) as Hnn. pose proof (dt_gen _ _ T) as Hg.
  destruct H; try (apply (DTrack_quiet d); try assumption; try reflexivity; try (intros; assumption); fail).
  - (* join *)
    split; unfold held, dat in *; cbn [set_dsessions set_dsession d_heap d_by_procedure d_by_session d_idgen d_call_ids d_pending].
    + rewrite Hg. cbn. lia.
    + exact (dt_ids _ _ T).
    + exact (dt_inj _ _ T).
    + intros s l reg A B. destruct (dt_all _ _ T s l reg A B) as (own & P & Q). rewrite zget_zset.
      destruct (Z.eqb_spec s (pyint_Z (det_session det))) as [->|]; [congruence|eauto].
    + exact (dt_held _ _ T).
    + exact (dt_seen _ _ T).
    + exact (dt_open _ _ T).
    + exact (dt_pending _ _ T).
  - (* leave *)
    assert (Hmem : forall l reg, dat d l = Some reg -> (In l (map snd own) <-> reg_registrants reg = [(s, s)])).
    { intros l reg A. split.
      - intros Hin. apply in_map_iff in Hin. destruct Hin as ([i l2] & Q & Hin). cbn in Q. subst l2.
        destruct (do_own _ O s own i l H) as (reg2 & A2 & _ & C2); [|congruence].
        apply (In_dget _ Zeqb_ok); [exact (do_nd_own _ O _ _ H)|exact Hin].
      - intros B. destruct (dt_all _ _ T s l reg A B) as (own' & P & Q). rewrite H in P. injection P as <-.
        apply in_map_iff. exists (reg_id reg, l). split; [reflexivity|]. apply (dget_In _ Zeqb_ok). exact Q. }
    match goal with X : forall l, dat d' l = _ |- _ => rename X into Hat end.
    assert (Hat2 : forall l reg, dat d' l = Some reg <-> exists reg0, dat d l = Some reg0 /\
              ((reg_registrants reg0 = [(s, s)] /\ reg = freed reg0) \/ (reg_registrants reg0 <> [(s, s)] /\ reg = reg0))).
    { intros l reg. rewrite Hat. destruct (dat d l) as [reg0|] eqn:A.
      - destruct (in_dec _ _ _) as [Hin|Hin]; rewrite (Hmem l reg0 A) in Hin; cbn [option_map]; split.
        + intros [= <-]. eauto.
        + intros (r0 & [= <-] & [[_ ->]|[? _]]); [reflexivity|contradiction].
        + intros [= <-]. eauto.
        + intros (r0 & [= <-] & [[? _]|[_ ->]]); [contradiction|reflexivity].
      - split; [destruct (in_dec _ _ _); discriminate|]. intros (r0 & [=] & _). }
    split.
    + rewrite H3. cbn. lia.
    + intros l reg A. apply Hat2 in A. destruct A as (r0 & A & [[_ ->]|[_ ->]]); rewrite H3; exact (dt_ids _ _ T _ _ A).
    + intros l1 l2 r1 r2 A1 A2. apply Hat2 in A1. apply Hat2 in A2. destruct A1 as (r1' & A1 & B1), A2 as (r2' & A2 & B2).
      intros E. apply (dt_inj _ _ T l1 l2 r1' r2' A1 A2). destruct B1 as [[_ ->]|[_ ->]], B2 as [[_ ->]|[_ ->]]; exact E.
    + intros s' l reg A B. apply Hat2 in A. destruct A as (r0 & A & [[_ ->]|[N ->]]); [discriminate|].
      destruct (dt_all _ _ T s' l r0 A B) as (own' & P & Q). exists own'. rewrite H1, zget_zdel by exact (do_nd_session _ O).
      destruct (Z.eqb_spec s' s) as [->|]; [contradiction|]. auto.
    + intros p. cbn [holder registers unregisters d_left]. rewrite <- (dt_held _ _ T).
      apply option_ext. intros [s' i]. rewrite held_iff by exact W'. split.
      * intros (l & reg & A & B & D & E). apply Hat2 in A. destruct A as (r0 & A & [[_ ->]|[N ->]]); [discriminate|].
        assert (K : held d p = Some (s', i)) by (apply held_iff; [exact W|]; exists l, r0; auto). rewrite K.
        destruct (Z.eqb_spec s s') as [->|]; [contradiction|reflexivity].
      * destruct (held d p) as [[s0 i0]|] eqn:K; [|discriminate]. destruct (Z.eqb_spec s s0) as [|N]; [discriminate|].
        intros E. injection E as -> ->. apply held_iff in K; [|exact W]. destruct K as (l & reg & A & B & D & E).
        exists l, reg. split; [|auto]. apply Hat2. exists reg. split; [exact A|]. right. split; [|reflexivity]. rewrite D. congruence.
    + intros i Hi. rewrite H3. exact (dt_seen _ _ T i Hi).
    + intros s' r0 i Hi. rewrite H3. rewrite H5 in Hi. exact (dt_open _ _ T _ _ _ Hi).
    + intros i inv Hi. rewrite H3. rewrite H4 in Hi. exact (dt_pending _ _ T _ _ Hi).
  - (* fresh call *)
    assert (F : fresh s m h = true).
    { unfold fresh. destruct (wants "progress" (ca_options m)) eqn:P; [|reflexivity]. cbn [negb orb].
      rewrite <- (dc_open _ _ C), H3 by reflexivity. reflexivity. }
    assert (K : d_takes_id (DMsg s (Call m), DRouted (mkRouted (invocation_for m id (reg_id reg)) c)) h = true) by exact F.
    cbn [d_ids_issued] in Hmax. rewrite K in Hmax. rewrite next_id_fresh in H4 by lia. injection H4 as <- <-.
    split; unfold held, dat in *; cbn [add_call set_dcalls set_dpending set_didgen d_heap d_by_procedure d_by_session d_idgen d_call_ids d_pending].
    + cbn [d_ids_issued]. rewrite K. lia.
    + intros l0 r0 A. pose proof (dt_ids _ _ T l0 r0 A). lia.
    + exact (dt_inj _ _ T).
    + exact (dt_all _ _ T).
    + intros p. exact (dt_held _ _ T p).
    + intros i Hi. unfold ids_seen in Hi. cbn [flat_map registers invokes invocation_for iv_request pyint_Z] in Hi.
      cbn [app In] in Hi. destruct Hi as [<-|Hi]; [lia|]. pose proof (dt_seen _ _ T i Hi). lia.
    + intros s' r0 i Hi. rewrite zzget_zzset in Hi. destruct (zz_eqb _ _); [injection Hi as <-; lia|].
      pose proof (dt_open _ _ T _ _ _ Hi). lia.
    + intros i inv Hi. rewrite zget_zset in Hi. destruct (Z.eqb_spec i (d_idgen d + 1)) as [->|]; [lia|].
      pose proof (dt_pending _ _ T _ _ Hi). lia.
  - (* chunk *)
    assert (F : fresh s m h = false).
    { unfold fresh. rewrite H3. cbn [negb orb]. rewrite <- (dc_open _ _ C), H4. reflexivity. }
    assert (K : d_takes_id (DMsg s (Call m), DRouted (mkRouted (invocation_for m id (reg_id reg)) c)) h = false) by exact F.
    split.
    + cbn [d_ids_issued]. rewrite K. lia.
    + exact (dt_ids _ _ T).
    + exact (dt_inj _ _ T).
    + exact (dt_all _ _ T).
    + exact (dt_held _ _ T).
    + intros i Hi. unfold ids_seen in Hi. cbn [flat_map registers invokes invocation_for iv_request pyint_Z] in Hi.
      cbn [app In] in Hi. destruct Hi as [<-|Hi]; [exact (dt_open _ _ T _ _ _ H4)|exact (dt_seen _ _ T i Hi)].
    + exact (dt_open _ _ T).
    + exact (dt_pending _ _ T).
  - (* last result *)
    apply (DTrack_quiet d); try assumption; try reflexivity; cbn [set_dcalls set_dpending d_pending d_call_ids].
    + intros s' r0 i. rewrite zzget_zzdel by exact (de_calls _ S). destruct (zz_eqb _ _); [discriminate|auto].
    + intros i inv0. rewrite zget_zdel by exact (de_pending _ S). destruct (_ =? _); [discriminate|auto].
  - (* crash *)
    apply (DTrack_quiet d); try assumption; try reflexivity; cbn [set_dcalls set_dpending d_pending d_call_ids]; [auto|].
    intros i inv0. rewrite zget_zdel by exact (de_pending _ S). destruct (_ =? _); [discriminate|auto].
  - (* register *)
    assert (K : d_takes_id (DMsg s (Register m), DRouted (mkRouted (Registered (mkRegistered (rg_request m) (PyInt id))) s)) h = true) by reflexivity.
    cbn [d_ids_issued] in Hmax. rewrite K in Hmax. rewrite next_id_fresh in H1 by lia. injection H1 as <- <-.
    set (d' := mkDealer _ _ _ _ _ _ _) in *.
    assert (Hat : forall l, dat d' l = if Nat.eqb l (length (d_heap d)) then Some (mkReg (d_idgen d + 1) (rg_procedure m) [(s, s)]) else dat d l)
      by (intros l; apply nth_snoc).
    split.
    + cbn [d_ids_issued]. rewrite K. cbn [d' d_idgen]. lia.
    + intros l reg A. rewrite Hat in A. cbn [d' d_idgen]. destruct (Nat.eqb _ _); [injection A as <-; cbn [reg_id]; lia|].
      pose proof (dt_ids _ _ T _ _ A). lia.
    + intros l1 l2 r1 r2 A1 A2 E. rewrite Hat in A1, A2.
      destruct (Nat.eqb l1 (length (d_heap d))) eqn:E1, (Nat.eqb l2 (length (d_heap d))) eqn:E2.
      * apply Nat.eqb_eq in E1, E2. congruence.
      * injection A1 as <-. pose proof (dt_ids _ _ T _ _ A2). cbn in E. lia.
      * injection A2 as <-. pose proof (dt_ids _ _ T _ _ A1). cbn in E. lia.
      * exact (dt_inj _ _ T _ _ _ _ A1 A2 E).
    + intros s' l reg A B. rewrite Hat in A. cbn [d' d_by_session]. destruct (Nat.eqb_spec l (length (d_heap d))) as [->|N].
      * injection A as <-. cbn in B. injection B as <-. rewrite zget_zset, Z.eqb_refl. eexists. split; [reflexivity|].
        cbn [reg_id]. rewrite zget_zset, Z.eqb_refl. reflexivity.
      * destruct (dt_all _ _ T _ _ _ A B) as (own' & P & Q). rewrite zget_zset. destruct (Z.eqb_spec s' s) as [->|]; [|eauto].
        rewrite H in P. injection P as <-. eexists. split; [reflexivity|]. rewrite zget_zset.
        pose proof (dt_ids _ _ T _ _ A). destruct (Z.eqb_spec (reg_id reg) (d_idgen d + 1)); [lia|exact Q].
    + intros p. cbn [holder registers rd_registration pyint_Z]. rewrite <- (dt_held _ _ T).
      unfold held. cbn [d' d_by_procedure]. rewrite tget_tset, String.eqb_sym.
      destruct (String.eqb (rg_procedure m) p).
      * rewrite Hat, Nat.eqb_refl. reflexivity.
      * destruct (tget p (d_by_procedure d)) as [l|] eqn:Q; [|reflexivity]. destruct (ds_proc _ W _ _ Q) as (reg & s0 & A & _).
        rewrite Hat, (dat_len _ _ _ A). reflexivity.
    + intros i Hi. unfold ids_seen in Hi. cbn [flat_map registers invokes rd_registration pyint_Z] in Hi. cbn [d' d_idgen].
      cbn [app In] in Hi. destruct Hi as [<-|Hi]; [lia|]. pose proof (dt_seen _ _ T i Hi). lia.
    + intros s' r0 i Hi. cbn [d' d_idgen]. pose proof (dt_open _ _ T _ _ _ Hi). lia.
    + intros i inv Hi. cbn [d' d_idgen]. pose proof (dt_pending _ _ T _ _ Hi). lia.
  - (* unregister *)
    match goal with X : forall l, dat d' l = _ |- _ => rename X into Hat end.
    match goal with X : d_by_session d' = _ |- _ => rename X into Hs end.
    match goal with X : d_idgen d' = _ |- _ => rename X into Hi' end.
    split.
    + rewrite Hi'. cbn. lia.
    + intros l' r0 A. rewrite Hat in A. rewrite Hi'. destruct (Nat.eqb_spec l' l) as [->|].
      * injection A as <-. exact (dt_ids _ _ T _ _ H1).
      * exact (dt_ids _ _ T _ _ A).
    + intros l1 l2 r1 r2 A1 A2 E. rewrite Hat in A1, A2.
      destruct (Nat.eqb_spec l1 l) as [->|], (Nat.eqb_spec l2 l) as [->|]; try reflexivity.
      * injection A1 as <-. exact (dt_inj _ _ T _ _ _ _ H1 A2 E).
      * injection A2 as <-. exact (dt_inj _ _ T _ _ _ _ A1 H1 E).
      * exact (dt_inj _ _ T _ _ _ _ A1 A2 E).
    + intros s' l' r0 A B. rewrite Hat in A. destruct (Nat.eqb_spec l' l) as [->|N]; [injection A as <-; discriminate|].
      destruct (dt_all _ _ T _ _ _ A B) as (own' & P & Q). rewrite Hs, zget_zset.
      destruct (Z.eqb_spec s' s) as [->|]; [|eauto]. rewrite H in P. injection P as <-. eexists. split; [reflexivity|].
      rewrite zget_zdel by exact (do_nd_own _ O _ _ H). destruct (Z.eqb_spec (reg_id r0) (pyint_Z (ur_registration m))) as [E|]; [|exact Q].
      rewrite <- H2 in E. destruct N. exact (dt_inj _ _ T _ _ _ _ A H1 E).
    + intros p. cbn [holder registers unregisters]. rewrite <- (dt_held _ _ T).
      apply option_ext. intros [s' i]. rewrite held_iff by exact W'. split.
      * intros (l' & r0 & A & B & D & E). rewrite Hat in A. destruct (Nat.eqb_spec l' l) as [->|N]; [injection A as <-; discriminate|].
        assert (K : held d p = Some (s', i)) by (apply held_iff; [exact W|]; exists l', r0; auto). rewrite K.
        destruct (Z.eqb_spec s s') as [->|]; [|reflexivity]. destruct (Z.eqb_spec (pyint_Z (ur_registration m)) i) as [E2|]; [|reflexivity].
        destruct N. apply (dt_inj _ _ T _ _ _ _ A H1). congruence.
      * destruct (held d p) as [[s0 i0]|] eqn:K; [|discriminate].
        destruct (Z.eqb_spec s s0) as [E1|N1], (Z.eqb_spec (pyint_Z (ur_registration m)) i0) as [E2|N2]; cbn [andb]; try discriminate;
        intros E; injection E as -> ->; apply held_iff in K; try exact W; destruct K as (l' & r0 & A & B & D & E);
        exists l', r0; (split; [|auto]); rewrite Hat; destruct (Nat.eqb_spec l' l) as [->|]; auto; exfalso; congruence.
    + intros i Hi. rewrite Hi'. exact (dt_seen _ _ T i Hi).
    + intros s' r0 i Hi. rewrite Hi'. match goal with X : d_call_ids d' = _ |- _ => rewrite X in Hi end. exact (dt_open _ _ T _ _ _ Hi).
    + intros i inv Hi. rewrite Hi'. match goal with X : d_pending d' = _ |- _ => rewrite X in Hi end. exact (dt_pending _ _ T _ _ Hi).
  - (* error *)
    apply (DTrack_quiet d); try assumption; try reflexivity; cbn [set_dcalls set_dpending d_pending d_call_ids]; [auto|].
    intros i inv0. rewrite zget_zdel by exact (de_pending _ S). destruct (_ =? _); [discriminate|auto].
  - (* other *)
    apply (DTrack_quiet d); try assumption; try reflexivity; auto; destruct m; try reflexivity; contradiction.
Qed.

(** ** Everything together *)
Definition DInv (d : dealer) (h : dhistory) : Prop :=
  DInv1 d /\ (forall s, zmem s (d_by_session d) = d_member s h) /\ DCalls d h /\ (d_ids_issued h <= ID_MAX -> DTrack d h).

Lemma DInv_step d h o : DInv d h -> DInv (fst (dstep d o)) ((o, snd (dstep d o)) :: h).
Proof.
  intros (I & M & C & T). pose proof (dstep_outcome d o I) as Hout. split; [eapply DInv1_step; eauto|]. split; [|split].
  - eapply d_member_step; eauto.
  - eapply DCalls_step; eauto.
  - intros Hmax. eapply DTrack_step; eauto. apply T. eapply Z.le_trans; [apply d_ids_issued_cons|exact Hmax].
Qed.
Lemma DInv_init : DInv dealer_init [].
Proof.
  split; [exact DInv1_init|]. split; [reflexivity|]. split; [split; reflexivity|]. intros _.
  split; unfold dat; cbn; try reflexivity; try (intros [|?]; discriminate); try (intros s [|?]; discriminate); try discriminate.
  intros i [].
Qed.
Lemma drun_inv_from ops : forall d h, DInv d h -> let dh := fold_left dstep_h ops (d, h) in DInv (fst dh) (snd dh).
Proof.
  induction ops as [|o ops IH]; intros d h I; [exact I|]. cbn [fold_left]. cbn zeta in *. unfold dstep_h at 2 4. cbn [fst snd].
  pose proof (DInv_step d h o I) as I'. destruct (dstep d o) as [d' r]. apply IH. exact I'.
Qed.
Lemma drun_inv ops : DInv (fst (drun ops)) (snd (drun ops)).
Proof. apply drun_inv_from. exact DInv_init. Qed.
Lemma drun_snoc ops o : drun (ops ++ [o]) =
  (fst (dstep (fst (drun ops)) o), (o, snd (dstep (fst (drun ops)) o)) :: snd (drun ops)).
Proof.
  unfold drun. rewrite fold_left_app. cbn [fold_left]. unfold dstep_h at 1. destruct (dstep _ o). reflexivity.
Qed.
