(** * RenameFacts: broker and dealer treat all names alike. *)
From Coq Require Import String Ascii List ZArith Bool.
From Verif Require Import PyBase Messages IdGen Joiner Broker SpecBroker BrokerRun Dealer SpecDealer DealerRun DealerFacts SpecRename.
Import ListNotations.
Local Open Scope Z_scope.
Local Open Scope list_scope.

Definition mapd {K K' V V'} (k : K -> K') (v : V -> V') (l : list (K * V)) : list (K' * V') := map (fun p => (k (fst p), v (snd p))) l.
Section Tables.
  Context {K K' V V' : Type} (eqb : K -> K -> bool) (eqb' : K' -> K' -> bool) (k : K -> K') (v : V -> V').
  Hypothesis E : forall a b, eqb' (k a) (k b) = eqb a b.
  Lemma dget_mapd x l : dget eqb' (k x) (mapd k v l) = option_map v (dget eqb x l).
  Proof. induction l as [|[a b] l IH]; [reflexivity|]. cbn. rewrite E. destruct (eqb x a); [reflexivity|exact IH]. Qed.
  Lemma dmem_mapd x l : dmem eqb' (k x) (mapd k v l) = dmem eqb x l.
  Proof. unfold dmem. rewrite dget_mapd. destruct (dget eqb x l); reflexivity. Qed.
  Lemma dset_mapd x y l : dset eqb' (k x) (v y) (mapd k v l) = mapd k v (dset eqb x y l).
  Proof. induction l as [|[a b] l IH]; [reflexivity|]. cbn. rewrite E. destruct (eqb x a); [reflexivity|]. cbn. f_equal. exact IH. Qed.
  Lemma ddel_mapd x l : ddel eqb' (k x) (mapd k v l) = mapd k v (ddel eqb x l).
  Proof. induction l as [|[a b] l IH]; [reflexivity|]. cbn. rewrite E. destruct (eqb x a); [reflexivity|]. cbn. f_equal. exact IH. Qed.
End Tables.
Lemma put_map {A B} (f : A -> B) l : forall n x, put (map f l) n (f x) = map f (put l n x).
Proof. induction l as [|y l IH]; intros [|n] x; try reflexivity. cbn. f_equal. apply IH. Qed.

Section Rename.
  Variable N : renaming.
  Hypothesis F : faithful N.
  Notation f := (r_session N). Notation g := (r_uri N).
  Lemma feqb a b : (f a =? f b) = (a =? b).
  Proof. destruct (Z.eqb_spec a b) as [->|H]; [apply Z.eqb_refl|]. apply Z.eqb_neq. intros Q. apply H, (proj1 F), Q. Qed.
  Lemma geqb a b : String.eqb (g a) (g b) = String.eqb a b.
  Proof. destruct (String.eqb_spec a b) as [->|H]; [apply String.eqb_refl|]. apply String.eqb_neq. intros Q. apply H, (proj2 F), Q. Qed.

  Definition idv {V} (x : V) := x.
  Definition zm {V V'} (v : V -> V') := mapd f v. Definition tm {V} := @mapd _ _ V V g idv.
  Lemma zget_m {V V'} (v : V -> V') x l : zget (f x) (zm v l) = option_map v (zget x l). Proof. apply dget_mapd, feqb. Qed.
  Lemma zmem_m {V V'} (v : V -> V') x l : zmem (f x) (zm v l) = zmem x l. Proof. apply dmem_mapd, feqb. Qed.
  Lemma zset_m {V V'} (v : V -> V') x y l : zset (f x) (v y) (zm v l) = zm v (zset x y l). Proof. apply dset_mapd, feqb. Qed.
  Lemma zset_i {V} x (y : V) l : zset (f x) y (zm idv l) = zm idv (zset x y l). Proof. apply (zset_m idv). Qed.
  Lemma zdel_m {V V'} (v : V -> V') x l : zdel (f x) (zm v l) = zm v (zdel x l). Proof. apply ddel_mapd, feqb. Qed.
  Lemma tget_m {V} x (l : list (string * V)) : tget (g x) (tm l) = tget x l.
  Proof. unfold tget, tm. rewrite (dget_mapd String.eqb String.eqb g idv geqb). destruct (dget _ _ _); reflexivity. Qed.
  Lemma tmem_m {V} x (l : list (string * V)) : tmem (g x) (tm l) = tmem x l. Proof. apply dmem_mapd, geqb. Qed.
  Lemma tset_m {V} x (y : V) l : tset (g x) y (tm l) = tm (tset x y l). Proof. apply (dset_mapd String.eqb String.eqb g idv geqb). Qed.
  Lemma tdel_m {V} x (l : list (string * V)) : tdel (g x) (tm l) = tm (tdel x l). Proof. apply ddel_mapd, geqb. Qed.

  Definition resR {A} (R : A -> A -> Prop) (r r' : res A) : Prop :=
    match r, r' with Ok x, Ok y => R x y | Raise e, Raise e' => same_class e e' | _, _ => False end.
  Lemma same_refl e : same_class e e. Proof. destruct e; cbn; auto. Qed.

  (** ** Broker *)
  Definition sub_ (s : subscription) : subscription := mkSub (sub_id s) (g (sub_topic s)) (zm f (sub_subscribers s)).
  Definition b_ (b : broker) : broker :=
    mkBroker (map sub_ (b_heap b)) (tm (b_by_topic b)) (zm idv (b_by_session b)) (zm (details_ N) (b_sessions b)) (b_idgen b).
  Definition okb {A} (R : A -> A -> Prop) (p p' : broker * res A) : Prop := fst p' = b_ (fst p) /\ resR R (snd p) (snd p').
  Lemma okb_bad {A} (R : A -> A -> Prop) b s s' : okb R (b, bad s) (b_ b, bad s').
  Proof. split; [reflexivity|exact I]. Qed.
  Lemma okb_raise {A} (R : A -> A -> Prop) b e : okb R (b, Raise e) (b_ b, Raise e).
  Proof. split; [reflexivity|apply same_refl]. Qed.
  Lemma okb_ok {A} (R : A -> A -> Prop) b x x' : R x x' -> okb R (b, Ok x) (b_ b, Ok x').
  Proof. split; [reflexivity|assumption]. Qed.

  Lemma b_heap_put b l s : set_bheap (b_ b) (put (b_heap (b_ b)) l (sub_ s)) = b_ (set_bheap b (put (b_heap b) l s)).
  Proof. unfold set_bheap, b_. cbn. rewrite put_map. reflexivity. Qed.
  Lemma b_topic_del b t : set_btopic (b_ b) (tdel (g t) (b_by_topic (b_ b))) = b_ (set_btopic b (tdel t (b_by_topic b))).
  Proof. unfold set_btopic, b_. cbn. rewrite tdel_m. reflexivity. Qed.
  Lemma b_session_set b s x : set_bsession (b_ b) (zset (f s) x (b_by_session (b_ b))) = b_ (set_bsession b (zset s x (b_by_session b))).
  Proof. unfold set_bsession, b_. cbn. rewrite zset_i. reflexivity. Qed.
  Lemma b_own b s : zget (f s) (b_by_session (b_ b)) = zget s (b_by_session b).
  Proof. cbn. rewrite zget_m. destruct (zget s (b_by_session b)); reflexivity. Qed.
  Lemma b_topic b t : tget (g t) (b_by_topic (b_ b)) = tget t (b_by_topic b). Proof. apply tget_m. Qed.
  Lemma b_at b l : nth_error (b_heap (b_ b)) l = option_map sub_ (nth_error (b_heap b) l).
  Proof. cbn. revert l. induction (b_heap b) as [|x h IH]; intros [|l]; try reflexivity. apply IH. Qed.

  Lemma add_b b d : okb eq (b_add_session b d) (b_add_session (b_ b) (details_ N d)).
  Proof.
    unfold b_add_session. cbv zeta. change (pyint_Z (det_session (details_ N d))) with (f (pyint_Z (det_session d))). unfold b_ at 1 2 3 4. cbn [b_by_session b_sessions].
    rewrite zmem_m. destruct (zmem _ _); [apply okb_bad|]. split; [|reflexivity]. unfold b_, set_bsessions, set_bsession. cbn. rewrite zset_i, zset_m. reflexivity.
  Qed.
  Lemma drop_b b s : okb eq (drop_topic_if_empty b s) (drop_topic_if_empty (b_ b) (sub_ s)).
  Proof.
    unfold drop_topic_if_empty. destruct s as [i t [|[x y] ss]]; cbn [sub_ sub_subscribers sub_topic zm mapd map]; [|apply okb_ok; reflexivity].
    change (b_by_topic (b_ b)) with (tm (b_by_topic b)) at 1. rewrite tmem_m. destruct (tmem _ _); [|apply okb_raise]. rewrite b_topic_del. apply okb_ok. reflexivity.
  Qed.
  Lemma sub_less s x : mkSub (sub_id (sub_ s)) (sub_topic (sub_ s)) (zdel (f x) (sub_subscribers (sub_ s))) = sub_ (mkSub (sub_id s) (sub_topic s) (zdel x (sub_subscribers s))).
  Proof. unfold sub_. cbn. rewrite zdel_m. reflexivity. Qed.
  Lemma remove_one_b s b l : okb eq (remove_one s b l) (remove_one (f s) (b_ b) l).
  Proof.
    unfold remove_one. rewrite b_at. destruct (nth_error (b_heap b) l) as [sub|]; cbn [option_map]; [|apply okb_raise].
    change (sub_topic (sub_ sub)) with (g (sub_topic sub)). rewrite b_topic. destruct (tget _ _) as [l'|]; [|apply okb_raise].
    rewrite b_at. destruct (nth_error (b_heap b) l') as [sub'|]; cbn [option_map]; [|apply okb_raise]. cbv zeta.
    assert (Q : zmem (f s) (sub_subscribers (sub_ sub')) = zmem s (sub_subscribers sub')) by apply zmem_m. rewrite Q.
    destruct (zmem s _); [rewrite sub_less|idtac]; rewrite b_heap_put; apply drop_b.
  Qed.
  Lemma remove_all_b s ls : forall b, okb eq (remove_all s b ls) (remove_all (f s) (b_ b) ls).
  Proof.
    induction ls as [|[i l] ls IH]; intros b; cbn [remove_all]; [apply okb_ok; reflexivity|]. pose proof (remove_one_b s b l) as [A B].
    destruct (remove_one s b l) as [b1 [u|e]], (remove_one (f s) (b_ b) l) as [b2 [u'|e']]; cbn in A, B; subst; try contradiction; [apply IH|split; [reflexivity|exact B]].
  Qed.
  Lemma remove_b b s : okb eq (b_remove_session b s) (b_remove_session (b_ b) (f s)).
  Proof.
    unfold b_remove_session. rewrite b_own. destruct (zget s (b_by_session b)) as [subs|]; [|apply okb_bad].
    assert (Q : set_bsession (b_ b) (zdel (f s) (b_by_session (b_ b))) = b_ (set_bsession b (zdel s (b_by_session b)))) by (unfold set_bsession, b_; cbn; rewrite zdel_m; reflexivity).
    rewrite Q. pose proof (remove_all_b s subs (set_bsession b (zdel s (b_by_session b)))) as [A B].
    destruct (remove_all s _ subs) as [b1 [u|e]], (remove_all (f s) _ subs) as [b2 [u'|e']]; cbn [fst snd resR] in A, B; subst; try contradiction; [|split; [reflexivity|exact B]].
    change (b_sessions (b_ b1)) with (zm (details_ N) (b_sessions b1)). rewrite zmem_m. destruct (zmem _ _); [|apply okb_raise].
    split; [|reflexivity]. unfold set_bsessions, b_. cbn. rewrite zdel_m. reflexivity.
  Qed.
  Definition same_routed (r r' : routed) := r' = routed_ N r.
  Lemma subscribe_b b s m : okb same_routed (b_subscribe b s m) (b_subscribe (b_ b) (f s) (mkSubscribe (su_request m) (g (su_topic m)) (su_options m))).
  Proof.
    unfold b_subscribe. rewrite b_own. destruct (zget s (b_by_session b)) as [own|]; [|apply okb_bad]. cbv zeta. cbn [su_topic su_request]. rewrite b_topic.
    destruct (tget (su_topic m) _) as [l|].
    - rewrite b_at. destruct (nth_error (b_heap b) l) as [sub|]; cbn [option_map]; [|apply okb_raise].
      assert (Q : mkSub (sub_id (sub_ sub)) (sub_topic (sub_ sub)) (zset (f s) (f s) (sub_subscribers (sub_ sub))) =
        sub_ (mkSub (sub_id sub) (sub_topic sub) (zset s s (sub_subscribers sub)))) by (unfold sub_; cbn; rewrite zset_m; reflexivity).
      rewrite Q, b_heap_put, b_session_set. apply okb_ok. reflexivity.
    - change (b_idgen (b_ b)) with (b_idgen b). destruct (next_id (b_idgen b)) as [i id]. split; [|reflexivity].
      unfold set_bsession, set_btopic, set_bidgen, set_bheap, b_. cbn. rewrite map_length, tset_m, zset_i, map_app. reflexivity.
  Qed.
  Lemma unsubscribe_b b s m : okb same_routed (b_unsubscribe b s m) (b_unsubscribe (b_ b) (f s) m).
  Proof.
    unfold b_unsubscribe. rewrite b_own. destruct (zget s (b_by_session b)) as [own|]; [|apply okb_bad]. cbv zeta.
    destruct (zget _ own) as [l|]; [|apply okb_bad]. rewrite b_at. destruct (nth_error (b_heap b) l) as [sub|]; cbn [option_map]; [|apply okb_raise].
    assert (Q : zmem (f s) (sub_subscribers (sub_ sub)) = zmem s (sub_subscribers sub)) by apply zmem_m. rewrite Q. destruct (zmem s _); cbn [negb]; [|apply okb_raise].
    rewrite sub_less, b_heap_put. set (sub' := mkSub _ _ _). set (b1 := set_bheap b _). pose proof (drop_b b1 sub') as [A B].
    destruct (drop_topic_if_empty b1 sub') as [b2 [u|e]], (drop_topic_if_empty (b_ b1) (sub_ sub')) as [b3 [u'|e']]; cbn [fst snd resR] in A, B; subst; try contradiction;
      [|split; [reflexivity|exact B]].
    rewrite b_session_set. apply okb_ok. reflexivity.
  Qed.
  Lemma message_b b s m : okb same_routed (b_receive_message b s m) (b_receive_message (b_ b) (f s) (renamed N m)).
  Proof. destruct m; cbn [renamed b_receive_message]; try apply okb_bad; [apply subscribe_b|apply unsubscribe_b]. Qed.
  Lemma publish_b b s m : okb (fun p p' => p' = publication_ N p) (b_receive_publish b s m) (b_receive_publish (b_ b) (f s) (publish_ N m)).
  Proof.
    unfold b_receive_publish. change (b_by_session (b_ b)) with (zm (@idv (list (Z * nat))) (b_by_session b)). rewrite zmem_m. destruct (zmem _ _); cbn [negb]; [|apply okb_bad].
    change (b_idgen (b_ b)) with (b_idgen b). destruct (next_id (b_idgen b)) as [i pid]. cbv zeta. cbn [publish_ pb_options pb_request pb_topic pb_args pb_kwargs].
    change (set_bidgen (b_ b) i) with (b_ (set_bidgen b i)). rewrite b_topic. destruct (tget _ _) as [l|].
    - rewrite b_at. destruct (nth_error _ l) as [sub|]; cbn [option_map]; [|apply okb_raise]. apply okb_ok. unfold publication_. cbn [pu_event pu_recipients pu_ack option_map].
      f_equal; [|destruct (truthy _); reflexivity]. unfold sub_, zm, mapd. cbn [sub_subscribers]. rewrite !map_map. reflexivity.
    - apply okb_ok. destruct (truthy _); reflexivity.
  Qed.
  Lemma bstep_b b o : fst (bstep (b_ b) (bop_ N o)) = b_ (fst (bstep b o)) /\ bout_ N (snd (bstep b o)) (snd (bstep (b_ b) (bop_ N o))).
  Proof.
    destruct o as [d|s|s m|s m]; cbn [bop_ bstep].
    - pose proof (add_b b d) as [A B]. destruct (b_add_session b d) as [b1 [x|e]], (b_add_session (b_ b) _) as [b2 [x'|e']]; cbn in *; subst; try contradiction; auto.
    - pose proof (remove_b b s) as [A B]. destruct (b_remove_session b s) as [b1 [x|e]], (b_remove_session (b_ b) _) as [b2 [x'|e']]; cbn in *; subst; try contradiction; auto.
    - pose proof (message_b b s m) as [A B]. destruct (b_receive_message b s m) as [b1 [x|e]], (b_receive_message (b_ b) _ _) as [b2 [x'|e']]; cbn in *; subst; try contradiction; auto.
      rewrite B. auto.
    - pose proof (publish_b b s m) as [A B]. destruct (b_receive_publish b s m) as [b1 [x|e]], (b_receive_publish (b_ b) _ _) as [b2 [x'|e']]; cbn in *; subst; try contradiction; auto.
  Qed.
  Lemma brun_from ops : forall b h h', fst (fold_left bstep_h (map (bop_ N) ops) (b_ b, h')) = b_ (fst (fold_left bstep_h ops (b, h))).
  Proof.
    induction ops as [|o ops IH]; intros b h h'; [reflexivity|]. cbn [map fold_left]. unfold bstep_h at 2 4. cbn [fst snd]. pose proof (bstep_b b o) as [A _].
    destruct (bstep b o) as [b1 r], (bstep (b_ b) (bop_ N o)) as [b2 r']. cbn in A. subst b2. apply IH.
  Qed.
  Lemma brun_ ops : fst (brun (map (bop_ N) ops)) = b_ (fst (brun ops)).
  Proof. exact (brun_from ops broker_init [] []). Qed.
  Lemma broker_renamed ops o : bout_ N (banswer (fst (brun ops)) o) (banswer (fst (brun (map (bop_ N) ops))) (bop_ N o)).
  Proof. rewrite brun_. apply bstep_b. Qed.
  Lemma subscription_renamed ops t : has_subscription (fst (brun (map (bop_ N) ops))) (g t) = has_subscription (fst (brun ops)) t.
  Proof. rewrite brun_. apply tmem_m. Qed.

  (** ** Dealer *)
  Definition reg_ (r : registration) : registration := mkReg (reg_id r) (g (reg_procedure r)) (zm f (reg_registrants r)).
  Definition pend_ (p : pending_invocation) : pending_invocation := mkPending (pi_request p) (f (pi_caller p)) (f (pi_callee p)) (pi_progress p) (pi_receive_progress p).
  Definition pm := @mapd Z Z _ _ idv pend_.
  Definition ck (k : Z * Z) : Z * Z := (f (fst k), snd k).
  Definition cm {V} := @mapd _ _ V V ck idv.
  Definition d_ (d : dealer) : dealer :=
    mkDealer (map reg_ (d_heap d)) (tm (d_by_procedure d)) (zm idv (d_by_session d)) (pm (d_pending d)) (cm (d_call_ids d)) (zm (details_ N) (d_sessions d)) (d_idgen d).
  Lemma ckeqb a b : zz_eqb (ck a) (ck b) = zz_eqb a b. Proof. unfold zz_eqb, ck. cbn. rewrite feqb. reflexivity. Qed.
  Lemma idz (a b : Z) : (idv a =? idv b) = (a =? b). Proof. reflexivity. Qed.
  Lemma pget_m x l : zget x (pm l) = option_map pend_ (zget x l). Proof. exact (dget_mapd Z.eqb Z.eqb idv pend_ idz x l). Qed.
  Lemma pset_m x y l : zset x (pend_ y) (pm l) = pm (zset x y l). Proof. exact (dset_mapd Z.eqb Z.eqb idv pend_ idz x y l). Qed.
  Lemma pdel_m x l : zdel x (pm l) = pm (zdel x l). Proof. exact (ddel_mapd Z.eqb Z.eqb idv pend_ idz x l). Qed.
  Lemma cget_m {V} a b (l : list (Z * Z * V)) : zzget (f a, b) (cm l) = zzget (a, b) l.
  Proof. unfold zzget, cm. change (f a, b) with (ck (a, b)). rewrite (dget_mapd zz_eqb zz_eqb ck idv ckeqb). destruct (dget _ _ _); reflexivity. Qed.
  Lemma cmem_m {V} a b (l : list (Z * Z * V)) : zzmem (f a, b) (cm l) = zzmem (a, b) l. Proof. exact (dmem_mapd zz_eqb zz_eqb ck idv ckeqb (a, b) l). Qed.
  Lemma cset_m {V} a b (y : V) l : zzset (f a, b) y (cm l) = cm (zzset (a, b) y l). Proof. exact (dset_mapd zz_eqb zz_eqb ck idv ckeqb (a, b) y l). Qed.
  Lemma cdel_m {V} a b (l : list (Z * Z * V)) : zzdel (f a, b) (cm l) = cm (zzdel (a, b) l). Proof. exact (ddel_mapd zz_eqb zz_eqb ck idv ckeqb (a, b) l). Qed.

  Definition okd {A} (R : A -> A -> Prop) (p p' : dealer * res A) : Prop := fst p' = d_ (fst p) /\ resR R (snd p) (snd p').
  Lemma okd_bad {A} (R : A -> A -> Prop) d s s' : okd R (d, bad s) (d_ d, bad s').
  Proof. split; [reflexivity|exact I]. Qed.
  Lemma okd_raise {A} (R : A -> A -> Prop) d e : okd R (d, Raise e) (d_ d, Raise e).
  Proof. split; [reflexivity|apply same_refl]. Qed.
  Lemma okd_ok {A} (R : A -> A -> Prop) d x x' : R x x' -> okd R (d, Ok x) (d_ d, Ok x').
  Proof. split; [reflexivity|assumption]. Qed.

  Lemma d_heap_put d l r : set_dheap (d_ d) (put (d_heap (d_ d)) l (reg_ r)) = d_ (set_dheap d (put (d_heap d) l r)).
  Proof. unfold set_dheap, d_. cbn. rewrite put_map. reflexivity. Qed.
  Lemma d_proc_del d t : set_dproc (d_ d) (tdel (g t) (d_by_procedure (d_ d))) = d_ (set_dproc d (tdel t (d_by_procedure d))).
  Proof. unfold set_dproc, d_. cbn. rewrite tdel_m. reflexivity. Qed.
  Lemma d_session_set d s x : set_dsession (d_ d) (zset (f s) x (d_by_session (d_ d))) = d_ (set_dsession d (zset s x (d_by_session d))).
  Proof. unfold set_dsession, d_. cbn. rewrite zset_i. reflexivity. Qed.
  Lemma d_own d s : zget (f s) (d_by_session (d_ d)) = zget s (d_by_session d).
  Proof. cbn. rewrite zget_m. destruct (zget s (d_by_session d)); reflexivity. Qed.
  Lemma d_proc d t : tget (g t) (d_by_procedure (d_ d)) = tget t (d_by_procedure d). Proof. apply tget_m. Qed.
  Lemma d_procm d t : tmem (g t) (d_by_procedure (d_ d)) = tmem t (d_by_procedure d). Proof. apply tmem_m. Qed.
  Lemma d_at d l : nth_error (d_heap (d_ d)) l = option_map reg_ (nth_error (d_heap d) l).
  Proof. cbn. revert l. induction (d_heap d) as [|x h IH]; intros [|l]; try reflexivity. apply IH. Qed.
  Lemma reg_less r x : mkReg (reg_id (reg_ r)) (reg_procedure (reg_ r)) (zdel (f x) (reg_registrants (reg_ r))) = reg_ (mkReg (reg_id r) (reg_procedure r) (zdel x (reg_registrants r))).
  Proof. unfold reg_. cbn. rewrite zdel_m. reflexivity. Qed.

  Lemma add_d d x : okd eq (d_add_session d x) (d_add_session (d_ d) (details_ N x)).
  Proof.
    unfold d_add_session. cbv zeta. change (pyint_Z (det_session (details_ N x))) with (f (pyint_Z (det_session x))).
    assert (Q : zmem (f (pyint_Z (det_session x))) (d_by_session (d_ d)) = zmem (pyint_Z (det_session x)) (d_by_session d)) by apply zmem_m. rewrite Q.
    destruct (zmem (pyint_Z _) _); [apply okd_bad|]. split; [|reflexivity]. unfold d_, set_dsessions, set_dsession. cbn. rewrite zset_i, zset_m. reflexivity.
  Qed.
  Lemma remove_one_d s d l : okd eq (d_remove_one s d l) (d_remove_one (f s) (d_ d) l).
  Proof.
    unfold d_remove_one. rewrite d_at. destruct (nth_error (d_heap d) l) as [reg|]; cbn [option_map]; [|apply okd_raise].
    change (reg_procedure (reg_ reg)) with (g (reg_procedure reg)). rewrite d_proc. destruct (tget _ _) as [l'|]; [|apply okd_raise].
    rewrite d_at. destruct (nth_error (d_heap d) l') as [reg'|]; cbn [option_map]; [|apply okd_raise]. cbv zeta.
    assert (Q : zmem (f s) (reg_registrants (reg_ reg')) = zmem s (reg_registrants reg')) by apply zmem_m. rewrite Q.
    assert (R : (if zmem s (reg_registrants reg') then mkReg (reg_id (reg_ reg')) (reg_procedure (reg_ reg')) (zdel (f s) (reg_registrants (reg_ reg'))) else reg_ reg') =
      reg_ (if zmem s (reg_registrants reg') then mkReg (reg_id reg') (reg_procedure reg') (zdel s (reg_registrants reg')) else reg')).
    { destruct (zmem s _); [apply reg_less|reflexivity]. }
    rewrite R. set (r := if zmem s (reg_registrants reg') then _ else _). rewrite d_heap_put. set (d1 := set_dheap d _).
    change (reg_procedure (reg_ r)) with (g (reg_procedure r)). change (reg_registrants (reg_ r)) with (zm f (reg_registrants r)).
    destruct (reg_registrants r) as [|[x y] rs]; cbn [zm mapd map]; [|apply okd_ok; reflexivity]. rewrite d_procm. destruct (tmem _ _); [|apply okd_raise].
    rewrite d_proc_del. apply okd_ok. reflexivity.
  Qed.
  Lemma remove_all_d s ls : forall d, okd eq (d_remove_all s d ls) (d_remove_all (f s) (d_ d) ls).
  Proof.
    induction ls as [|[i l] ls IH]; intros d; cbn [d_remove_all]; [apply okd_ok; reflexivity|]. pose proof (remove_one_d s d l) as [A B].
    destruct (d_remove_one s d l) as [d1 [u|e]], (d_remove_one (f s) (d_ d) l) as [d2 [u'|e']]; cbn [fst snd resR] in A, B; subst; try contradiction; [apply IH|split; [reflexivity|exact B]].
  Qed.
  Lemma remove_d d s : okd eq (d_remove_session d s) (d_remove_session (d_ d) (f s)).
  Proof.
    unfold d_remove_session. rewrite d_own. destruct (zget s (d_by_session d)) as [regs|]; [|apply okd_bad].
    assert (Q : set_dsession (d_ d) (zdel (f s) (d_by_session (d_ d))) = d_ (set_dsession d (zdel s (d_by_session d)))) by (unfold set_dsession, d_; cbn; rewrite zdel_m; reflexivity).
    rewrite Q. pose proof (remove_all_d s regs (set_dsession d (zdel s (d_by_session d)))) as [A B].
    destruct (d_remove_all s _ regs) as [d1 [u|e]], (d_remove_all (f s) _ regs) as [d2 [u'|e']]; cbn [fst snd resR] in A, B; subst; try contradiction; [|split; [reflexivity|exact B]].
    assert (R : zmem (f s) (d_sessions (d_ d1)) = zmem s (d_sessions d1)) by apply zmem_m. rewrite R. destruct (zmem s _); [|apply okd_raise].
    split; [|reflexivity]. unfold set_dsessions, d_. cbn. rewrite zdel_m. reflexivity.
  Qed.
  Lemma add_call_d d r i a b p q : add_call (d_ d) r i (f a) (f b) p q = d_ (add_call d r i a b p q).
  Proof. unfold add_call, set_dcalls, set_dpending, d_. cbn. rewrite cset_m. change (mkPending r (f a) (f b) p q) with (pend_ (mkPending r a b p q)). rewrite pset_m. reflexivity. Qed.
  Lemma call_d d s m : DInv1 d -> okd same_routed (d_call d s m)
    (d_call (d_ d) (f s) (mkCall (ca_request m) (g (ca_procedure m)) (args_ N (ca_args m)) (kwargs_ N (ca_kwargs m)) (ca_opts m) (bin_ N (ca_bin m)))).
  Proof.
    intros (W & _ & _). unfold d_call. cbn [ca_procedure ca_request ca_args ca_kwargs ca_bin]. rewrite d_proc. destruct (tget (ca_procedure m) (d_by_procedure d)) as [l|] eqn:T; [|apply okd_ok; reflexivity].
    destruct (ds_proc _ W _ _ T) as (reg & s0 & A & B & C). unfold dat in A. rewrite d_at, A. cbn [option_map]. cbv zeta.
    match goal with |- okd _ _ ?r => set (right := r) end.
    assert (O : ca_options (mkCall (ca_request m) (g (ca_procedure m)) (args_ N (ca_args m)) (kwargs_ N (ca_kwargs m)) (ca_opts m) (bin_ N (ca_bin m))) = ca_options m) by reflexivity.
    unfold right. clear right. rewrite O. change (reg_registrants (reg_ reg)) with (zm f (reg_registrants reg)). rewrite C. cbn [zm mapd map fst snd].
    change (d_idgen (d_ d)) with (d_idgen d). destruct (next_id (d_idgen d)) as [i id]. change (set_didgen (d_ d) i) with (d_ (set_didgen d i)). rewrite add_call_d.
    change (d_call_ids (d_ d)) with (cm (d_call_ids d)). rewrite cget_m.
    destruct (truthy (sget_default OPTION_PROGRESS _ _)); [destruct (zzget _ _)|]; apply okd_ok; reflexivity.
  Qed.
  Lemma yield_d d s m : okd same_routed (d_yield d s m) (d_yield (d_ d) (f s) (mkYield (yi_request m) (args_ N (yi_args m)) (kwargs_ N (yi_kwargs m)) (yi_opts m) (bin_ N (yi_bin m)))).
  Proof.
    unfold d_yield. cbn [yi_request yi_args yi_kwargs]. change (d_pending (d_ d)) with (pm (d_pending d)). rewrite pget_m. destruct (zget _ (d_pending d)) as [inv|]; cbn [option_map]; [|apply okd_bad].
    cbn [pend_ pi_callee pi_caller pi_request pi_receive_progress]. rewrite feqb. destruct (s =? pi_callee inv); cbn [negb]; [|apply okd_bad]. cbv zeta.
    match goal with |- context [yi_options (mkYield ?a ?b ?c ?e ?x)] => change (yi_options (mkYield a b c e x)) with (yi_options m) end.
    destruct (truthy _ && truthy _); [apply okd_ok; reflexivity|]. rewrite pdel_m.
    assert (Q : set_dpending (d_ d) (pm (zdel (pyint_Z (yi_request m)) (d_pending d))) = d_ (set_dpending d (zdel (pyint_Z (yi_request m)) (d_pending d)))) by reflexivity.
    rewrite Q. set (d1 := set_dpending d _). change (d_call_ids (d_ d1)) with (cm (d_call_ids d1)). rewrite cmem_m. destruct (zzmem _ _); [|apply okd_raise].
    rewrite cdel_m. split; reflexivity.
  Qed.
  Lemma register_d d s m : okd same_routed (d_register d s m) (d_register (d_ d) (f s) (mkRegister (rg_request m) (g (rg_procedure m)) (rg_options m))).
  Proof.
    unfold d_register. rewrite d_own. destruct (zget s (d_by_session d)) as [own|]; [|apply okd_bad]. cbn [rg_procedure rg_request]. rewrite d_proc.
    destruct (tget (rg_procedure m) _) as [l|]; [apply okd_ok; reflexivity|]. change (d_idgen (d_ d)) with (d_idgen d). destruct (next_id (d_idgen d)) as [i id]. cbv zeta.
    split; [|reflexivity]. unfold set_dsession, set_dproc, set_didgen, set_dheap, d_. cbn. rewrite map_length, tset_m, zset_i, map_app. reflexivity.
  Qed.
  Lemma unregister_d d s m : okd same_routed (d_unregister d s m) (d_unregister (d_ d) (f s) m).
  Proof.
    unfold d_unregister. rewrite d_own. destruct (zget s (d_by_session d)) as [own|]; [|apply okd_bad]. cbv zeta. destruct (zget _ own) as [l|]; [|apply okd_bad].
    rewrite d_at. destruct (nth_error (d_heap d) l) as [reg|]; cbn [option_map]; [|apply okd_raise].
    assert (Q : zmem (f s) (reg_registrants (reg_ reg)) = zmem s (reg_registrants reg)) by apply zmem_m. rewrite Q. destruct (zmem s _); cbn [negb]; [|apply okd_bad].
    rewrite reg_less, d_heap_put. set (r := mkReg _ _ _). set (d1 := set_dheap d _).
    change (reg_procedure (reg_ r)) with (g (reg_procedure r)). change (reg_registrants (reg_ r)) with (zm f (reg_registrants r)).
    destruct (reg_registrants r) as [|[x y] rs]; cbn [zm mapd map]; [|apply okd_ok; reflexivity]. rewrite d_session_set, d_procm. destruct (tmem _ _); [|apply okd_raise].
    rewrite d_proc_del. apply okd_ok. reflexivity.
  Qed.
  Lemma error_d d m : okd same_routed (d_error d m) (d_error (d_ d) (mkError (er_type m) (er_request m) (er_uri m) (args_ N (er_args m)) (kwargs_ N (er_kwargs m)) (er_details m))).
  Proof.
    unfold d_error. cbn [er_type er_request er_uri er_args er_kwargs er_details]. destruct (pyint_Z (er_type m) =? T_INVOCATION); cbn [negb]; [|apply okd_bad].
    change (d_pending (d_ d)) with (pm (d_pending d)). rewrite pget_m. destruct (zget _ (d_pending d)) as [inv|]; cbn [option_map]; [|apply okd_bad]. rewrite pdel_m. split; reflexivity.
  Qed.
  Lemma message_d d s m : DInv1 d -> okd same_routed (d_receive_message d s m) (d_receive_message (d_ d) (f s) (renamed N m)).
  Proof.
    intros W. destruct m; cbn [renamed d_receive_message]; try apply okd_bad; [apply error_d|apply call_d; exact W|apply register_d|apply unregister_d|apply yield_d].
  Qed.
  Lemma dstep_d d o : DInv1 d -> fst (dstep (d_ d) (dop_ N o)) = d_ (fst (dstep d o)) /\ dout_ N (snd (dstep d o)) (snd (dstep (d_ d) (dop_ N o))).
  Proof.
    intros W. destruct o as [x|s|s m]; cbn [dop_ dstep].
    - pose proof (add_d d x) as [A B]. destruct (d_add_session d x) as [b1 [y|e]], (d_add_session (d_ d) _) as [b2 [y'|e']]; cbn in *; subst; try contradiction; auto.
    - pose proof (remove_d d s) as [A B]. destruct (d_remove_session d s) as [b1 [x|e]], (d_remove_session (d_ d) _) as [b2 [x'|e']]; cbn in *; subst; try contradiction; auto.
    - pose proof (message_d d s m W) as [A B]. destruct (d_receive_message d s m) as [b1 [x|e]], (d_receive_message (d_ d) _ _) as [b2 [x'|e']]; cbn in *; subst; try contradiction; auto.
      rewrite B. auto.
  Qed.
  Lemma drun_ ops : fst (drun (map (dop_ N) ops)) = d_ (fst (drun ops)).
  Proof.
    induction ops as [|o ops IH] using rev_ind; [reflexivity|]. rewrite map_app. cbn [map]. rewrite !drun_snoc. cbn [fst].
    rewrite IH. apply dstep_d. apply (drun_inv ops).
  Qed.
  Lemma dealer_renamed ops o : dout_ N (danswer (fst (drun ops)) o) (danswer (fst (drun (map (dop_ N) ops))) (dop_ N o)).
  Proof. rewrite drun_. apply dstep_d. apply (drun_inv ops). Qed.
  Lemma registration_renamed ops t : has_registration (fst (drun (map (dop_ N) ops))) (g t) = has_registration (fst (drun ops)) t.
  Proof. rewrite drun_. apply tmem_m. Qed.
End Rename.
