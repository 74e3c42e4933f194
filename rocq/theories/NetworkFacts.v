(** * NetworkFacts: in the network every message the router sends is accepted by the client it reaches. *)
From Coq Require Import String Ascii List ZArith Bool Lia Permutation.
From Verif Require Import PyBase Messages IdGen DictFacts SpecHistory Session SpecSession SessionRun SessionFacts Joiner.
From Verif Require Import Broker SpecBroker BrokerRun BrokerFacts Dealer SpecDealer DealerRun DealerFacts Network SpecNetwork.
Import ListNotations.
Local Open Scope string_scope.
Local Open Scope Z_scope.
Local Open Scope list_scope.

Fixpoint omap {A B} (f : A -> option B) (l : list A) : list B :=
  match l with
  | [] => []
  | x :: l => match f x with Some y => y :: omap f l | None => omap f l end
  end.
Lemma omap_app {A B} (f : A -> option B) l1 l2 : omap f (l1 ++ l2) = omap f l1 ++ omap f l2.
Proof. induction l1 as [|x l IH]; cbn; [reflexivity|]. destruct (f x); cbn; rewrite IH; reflexivity. Qed.

(** ** Requests and answers, per kind *)
Definition acknowledged (x : publish) : bool := truthy (sget_default "acknowledge" (VBool false) (pb_options x)).

Definition up_req (k : request_kind) (m : message) : option Z :=
  match m with
  | Publish x => if acknowledged x then (if kind_eqb k RPub then Some (pyint_Z (pb_request x)) else None) else None
  | _ => match asks m with Some (k', r) => if kind_eqb k k' then Some r else None | None => None end
  end.

Definition down_req (k : request_kind) (m : message) : option Z :=
  match k, m with
  | RSub, Subscribed x => Some (pyint_Z (sd_request x))
  | RUnsub, Unsubscribed x => Some (pyint_Z (ud_request x))
  | RPub, Published x => Some (pyint_Z (pd_request x))
  | RReg, Registered x => Some (pyint_Z (rd_request x))
  | RReg, Error x => if pyint_Z (er_type x) =? T_REGISTER then Some (pyint_Z (er_request x)) else None
  | RUnreg, Unregistered x => Some (pyint_Z (un_request x))
  | RCall, Result x => Some (pyint_Z (re_request x))
  | RCall, Error x => if pyint_Z (er_type x) =? T_CALL then Some (pyint_Z (er_request x)) else None
  | _, _ => None
  end.

Definition outstanding (k : request_kind) (c : session) : list Z :=
  match k with
  | RSub => subscribe_requests c
  | RUnsub => map fst (unsubscribe_requests c)
  | RPub => publish_requests c
  | RReg => register_requests c
  | RUnreg => map fst (unregister_requests c)
  | RCall => call_requests c
  end.
Definition members (hf : half) (c : session) : list Z :=
  match hf with PubSub => subscriptions c | Rpc => registrations c end.
Definition targets (hf : half) (c : session) : list (Z * Z) :=
  match hf with PubSub => unsubscribe_requests c | Rpc => unregister_requests c end.
Definition tgt_req (hf : half) (m : message) : option (Z * Z) :=
  match hf, m with
  | PubSub, Unsubscribe x => Some (pyint_Z (us_request x), pyint_Z (us_subscription x))
  | Rpc, Unregister x => Some (pyint_Z (ur_request x), pyint_Z (ur_registration x))
  | _, _ => None
  end.

(** What a message does to the client's subscriptions (registrations). *)
Inductive eff := Add (g : Z) | Del (r : Z) | Need (g : Z) | Nop.
Definition eff_of (hf : half) (m : message) : eff :=
  match hf, m with
  | PubSub, Subscribed x => Add (pyint_Z (sd_subscription x))
  | PubSub, Unsubscribed x => Del (pyint_Z (ud_request x))
  | PubSub, Event x => Need (pyint_Z (ev_subscription x))
  | Rpc, Registered x => Add (pyint_Z (rd_registration x))
  | Rpc, Unregistered x => Del (pyint_Z (un_request x))
  | Rpc, Invocation x => Need (pyint_Z (iv_registration x))
  | _, _ => Nop
  end.

(** The messages routers send. *)
Definition router_msg (m : message) : Prop :=
  match m with
  | Event _ | Subscribed _ | Unsubscribed _ | Published _ | Invocation _ | Registered _ | Unregistered _ | Result _ => True
  | Error x => pyint_Z (er_type x) = T_CALL \/ pyint_Z (er_type x) = T_REGISTER
  | _ => False
  end.

(** ** The session *)
Lemma in_sadd x s y : In y (sadd x s) <-> y = x \/ In y s.
Proof. rewrite <- !smem_In, smem_sadd, orb_true_iff, Z.eqb_eq. tauto. Qed.
Lemma in_srem x s y : NoDup s -> In y (srem x s) <-> y <> x /\ In y s.
Proof.
  intros H. rewrite <- !smem_In, smem_srem by exact H. rewrite andb_true_iff, negb_true_iff, Z.eqb_neq. tauto.
Qed.
Lemma in_keys_zset r g (d : list (Z * Z)) y : In y (map fst (zset r g d)) <-> y = r \/ In y (map fst d).
Proof.
  rewrite <- !(dget_Some_key _ Zeqb_ok). change (dget Z.eqb) with (@zget Z). rewrite zget_zset.
  destruct (Z.eqb_spec y r); split; intros H; eauto; destruct H as [H|H]; try contradiction; eauto.
Qed.
Lemma in_keys_zdel r (d : list (Z * Z)) y : NoDup (map fst d) ->
  In y (map fst (zdel r d)) <-> y <> r /\ In y (map fst d).
Proof.
  intros H. rewrite <- !(dget_Some_key _ Zeqb_ok). change (dget Z.eqb) with (@zget Z). rewrite zget_zdel by exact H.
  destruct (Z.eqb_spec y r); split; intros K; try tauto. destruct K as [v K]. discriminate.
Qed.

Lemma send_raises c m c' e : send_track c m = (c', Raise e) -> c' = c.
Proof.
  destruct m; cbn [send_track]; intros H; try congruence;
    repeat (destruct (truthy _) in H || destruct (smem _ _) in H || destruct (negb _) in H); congruence.
Qed.

Lemma send_fields c m c' : send_track c m = (c', Ok tt) ->
  (forall k x, In x (outstanding k c') <-> up_req k m = Some x \/ In x (outstanding k c)) /\
  (forall hf, members hf c' = members hf c) /\
  (forall hf x, zget x (targets hf c') =
     match tgt_req hf m with Some (r, g) => if x =? r then Some g else zget x (targets hf c) | None => zget x (targets hf c) end).
Proof.
  assert (X : forall (a b : Z) P, (Some a = Some b \/ P) <-> (b = a \/ P)) by (intros; split; intros [H|H]; auto; left; congruence).
  assert (Y : forall (b : Z) (P : Prop), (None = Some b \/ P) <-> P) by (intros; split; [intros [H|H]; [discriminate|auto]|auto]).
  destruct m; cbn [send_track]; intros H; try discriminate.
  all: repeat match type of H with (if ?b then _ else _) = _ => destruct b eqn:? end.
  all: try discriminate; injection H as <-.
  all: repeat split; intros; try (destruct k); try (destruct hf).
  all: cbn [outstanding up_req asks kind_eqb members targets tgt_req] in *.
  all: unfold set_call_requests, set_register_requests, set_registrations, set_invocation_requests, set_unregister_requests,
         set_publish_requests, set_subscribe_requests, set_subscriptions, set_unsubscribe_requests in *;
       cbn [call_requests register_requests registrations invocation_requests unregister_requests publish_requests
            subscribe_requests subscriptions unsubscribe_requests] in *.
  all: unfold acknowledged in *; repeat match goal with E : truthy _ = _ |- _ => rewrite E in * end.
  all: cbn [kind_eqb] in *.
  all: rewrite ?X, ?Y, ?in_sadd, ?in_keys_zset, ?zget_zset in *; try tauto; try reflexivity; auto.
Qed.

Lemma receive_foreign hf c m : router_msg m -> message_half m <> Some hf ->
  let c' := fst (receive_message c m) in
  (forall k, in_half hf k = true -> outstanding k c' = outstanding k c) /\ members hf c' = members hf c /\
  targets hf c' = targets hf c /\ eff_of hf m = Nop /\ (forall k, in_half hf k = true -> down_req k m = None).
Proof.
  intros R H. destruct m; cbn [router_msg] in R; try contradiction; destruct hf; cbn [message_half] in H; try congruence.
  all: cbn [receive_message]; cbv zeta.
  all: try (unfold receive_error; destruct R as [R|R]; rewrite R; change (T_CALL =? T_CALL) with true;
            change (T_REGISTER =? T_CALL) with false; change (T_REGISTER =? T_REGISTER) with true; cbn [negb]).
  all: repeat match goal with |- context [match zget ?a ?b with _ => _ end] => destruct (zget a b) end.
  all: repeat match goal with |- context [if ?b then _ else _] => destruct b end.
  all: cbn [fst]; repeat split; intros; try (destruct k); try discriminate; reflexivity.
Qed.

Lemma receive_mine hf c sh m : Inv c sh -> router_msg m -> message_half m = Some hf ->
  (forall k r, in_half hf k = true -> down_req k m = Some r -> In r (outstanding k c)) ->
  match eff_of hf m with
  | Del r => exists g, zget r (targets hf c) = Some g /\ In g (members hf c)
  | Need g => In g (members hf c)
  | _ => True
  end ->
  exists c', receive_message c m = (c', Ok m) /\
  (forall k x, in_half hf k = true -> In x (outstanding k c') <-> In x (outstanding k c) /\ down_req k m <> Some x) /\
  (forall g, In g (members hf c') <->
     match eff_of hf m with
     | Add g' => g = g' \/ In g (members hf c)
     | Del r => In g (members hf c) /\ zget r (targets hf c) <> Some g
     | _ => In g (members hf c)
     end) /\
  (forall x, zget x (targets hf c') =
     match eff_of hf m with Del r => if x =? r then None else zget x (targets hf c) | _ => zget x (targets hf c) end).
Proof.
  intros J R Hm Hr He.
  assert (X : forall (a b : Z) (P : Prop), (P /\ Some a <> Some b) <-> (b <> a /\ P)) by (intros; split; intros [H1 H2]; split; congruence).
  assert (Y : forall (b : Z) (P : Prop), (P /\ None <> Some b) <-> P) by (intros; split; [tauto|intros; split; [auto|discriminate]]).
  assert (MS : forall x s, In x s -> smem x s = true) by (intros; apply smem_In; auto).
  destruct m; cbn [router_msg] in R; try contradiction; cbn [message_half] in Hm; injection Hm as <-.
  - (* ERROR *) destruct R as [R|R].
    + specialize (Hr RCall (pyint_Z (er_request m)) eq_refl). cbn [down_req] in Hr. rewrite R in Hr.
      change (T_CALL =? T_CALL) with true in Hr. cbv iota in Hr. specialize (Hr eq_refl). cbn [outstanding] in Hr.
      cbn [receive_message]. unfold receive_error. rewrite R. change (T_CALL =? T_CALL) with true. cbv iota.
      rewrite (MS _ _ Hr). eexists. split; [reflexivity|]. cbn [eff_of] in *. split; [|split; [reflexivity|reflexivity]].
      intros k x Hk. destruct k; try discriminate; cbn [outstanding down_req set_call_requests call_requests register_requests unregister_requests];
        rewrite ?R; change (T_CALL =? T_REGISTER) with false; change (T_CALL =? T_CALL) with true; cbv iota; rewrite ?X, ?Y; try tauto.
      apply in_srem. exact (nd_call _ _ J).
    + specialize (Hr RReg (pyint_Z (er_request m)) eq_refl). cbn [down_req] in Hr. rewrite R in Hr.
      change (T_REGISTER =? T_REGISTER) with true in Hr. cbv iota in Hr. specialize (Hr eq_refl). cbn [outstanding] in Hr.
      cbn [receive_message]. unfold receive_error. rewrite R. change (T_REGISTER =? T_CALL) with false.
      change (T_REGISTER =? T_REGISTER) with true. cbv iota.
      rewrite (MS _ _ Hr). eexists. split; [reflexivity|]. cbn [eff_of] in *. split; [|split; [reflexivity|reflexivity]].
      intros k x Hk. destruct k; try discriminate; cbn [outstanding down_req set_register_requests call_requests register_requests unregister_requests];
        rewrite ?R; change (T_REGISTER =? T_CALL) with false; change (T_REGISTER =? T_REGISTER) with true; cbv iota; rewrite ?X, ?Y; try tauto.
      apply in_srem. exact (nd_register _ _ J).
  - (* PUBLISHED *) specialize (Hr RPub _ eq_refl eq_refl). cbn [outstanding] in Hr. cbn [receive_message]. cbv zeta. rewrite (MS _ _ Hr).
    eexists. split; [reflexivity|]. cbn [eff_of] in *. split; [|split; reflexivity].
    intros k x Hk. destruct k; try discriminate; cbn [outstanding down_req set_publish_requests publish_requests subscribe_requests unsubscribe_requests];
      rewrite ?X, ?Y; try tauto. apply in_srem. exact (nd_publish _ _ J).
  - (* SUBSCRIBED *) specialize (Hr RSub _ eq_refl eq_refl). cbn [outstanding] in Hr. cbn [receive_message]. cbv zeta. rewrite (MS _ _ Hr).
    eexists. split; [reflexivity|]. cbn [eff_of] in *. split; [|split; [|reflexivity]].
    + intros k x Hk. destruct k; try discriminate; cbn [outstanding down_req set_subscribe_requests set_subscriptions publish_requests subscribe_requests unsubscribe_requests];
        rewrite ?X, ?Y; try tauto. apply in_srem. exact (nd_subscribe _ _ J).
    + intros g. cbn [members set_subscribe_requests set_subscriptions subscriptions]. apply in_sadd.
  - (* UNSUBSCRIBED *) cbn [eff_of] in He. destruct He as (g0 & G & Hg). cbn [receive_message]. cbv zeta. cbn [targets members] in G, Hg.
    rewrite G. cbn [set_unsubscribe_requests subscriptions]. rewrite (MS _ _ Hg). eexists. split; [reflexivity|].
    cbn [eff_of targets members]. split; [|split].
    + intros k x Hk. destruct k; try discriminate; cbn [outstanding down_req set_unsubscribe_requests set_subscriptions publish_requests subscribe_requests unsubscribe_requests];
        rewrite ?X, ?Y; try tauto. apply in_keys_zdel. exact (nd_unsubscribe _ _ J).
    + intros g. cbn [set_unsubscribe_requests set_subscriptions subscriptions]. rewrite in_srem by exact (nd_subscriptions _ _ J).
      rewrite G. split; intros [A B]; split; congruence.
    + intros x. cbn [set_unsubscribe_requests set_subscriptions unsubscribe_requests]. apply zget_zdel. exact (nd_unsubscribe _ _ J).
  - (* EVENT *) cbn [eff_of members] in He. cbn [receive_message]. rewrite (MS _ _ He). eexists. split; [reflexivity|].
    cbn [eff_of]. split; [|split; reflexivity].
    intros k x Hk. destruct k; try discriminate; cbn [down_req]; rewrite ?Y; tauto.
  - (* RESULT *) specialize (Hr RCall _ eq_refl eq_refl). cbn [outstanding] in Hr. cbn [receive_message]. cbv zeta. rewrite (MS _ _ Hr).
    eexists. split; [reflexivity|]. cbn [eff_of] in *. split; [|split; reflexivity].
    intros k x Hk. destruct k; try discriminate; cbn [outstanding down_req set_call_requests call_requests register_requests unregister_requests];
      rewrite ?X, ?Y; try tauto. apply in_srem. exact (nd_call _ _ J).
  - (* REGISTERED *) specialize (Hr RReg _ eq_refl eq_refl). cbn [outstanding] in Hr. cbn [receive_message]. cbv zeta. rewrite (MS _ _ Hr).
    eexists. split; [reflexivity|]. cbn [eff_of] in *. split; [|split; [|reflexivity]].
    + intros k x Hk. destruct k; try discriminate; cbn [outstanding down_req set_register_requests set_registrations call_requests register_requests unregister_requests];
        rewrite ?X, ?Y; try tauto. apply in_srem. exact (nd_register _ _ J).
    + intros g. cbn [members set_register_requests set_registrations registrations]. apply in_sadd.
  - (* UNREGISTERED *) cbn [eff_of] in He. destruct He as (g0 & G & Hg). cbn [receive_message]. cbv zeta. cbn [targets members] in G, Hg.
    rewrite G. cbn [set_unregister_requests registrations]. rewrite (MS _ _ Hg). eexists. split; [reflexivity|].
    cbn [eff_of targets members]. split; [|split].
    + intros k x Hk. destruct k; try discriminate; cbn [outstanding down_req set_unregister_requests set_registrations call_requests register_requests unregister_requests];
        rewrite ?X, ?Y; try tauto. apply in_keys_zdel. exact (nd_unregister _ _ J).
    + intros g. cbn [set_unregister_requests set_registrations registrations]. rewrite in_srem by exact (nd_registrations _ _ J).
      rewrite G. split; intros [A B]; split; congruence.
    + intros x. cbn [set_unregister_requests set_registrations unregister_requests]. apply zget_zdel. exact (nd_unregister _ _ J).
  - (* INVOCATION *) cbn [eff_of members] in He. cbn [receive_message]. rewrite (MS _ _ He). eexists. split; [reflexivity|].
    cbn [eff_of]. split; [|split; reflexivity].
    intros k x Hk. destruct k; try discriminate; cbn [down_req outstanding set_invocation_requests call_requests register_requests unregister_requests]; rewrite ?Y; tauto.
Qed.

(** ** One client: session, uplink, calls pending in the dealer, downlink, what the router thinks it holds *)
Fixpoint good (tg : Z -> option Z) (S : Z -> Prop) (D : list eff) (K : Z -> Prop) : Prop :=
  match D with
  | [] => forall i, S i <-> K i
  | Add g :: D => good tg (fun i => i = g \/ S i) D K
  | Del r :: D => exists g, tg r = Some g /\ S g /\ good tg (fun i => S i /\ i <> g) D K
  | Need g :: D => S g /\ good tg S D K
  | Nop :: D => good tg S D K
  end.

Lemma good_ext D : forall tg tg' S S' K, (forall r, In (Del r) D -> tg' r = tg r) -> (forall i, S i <-> S' i) ->
  good tg S D K -> good tg' S' D K.
Proof.
  induction D as [|e D IH]; intros tg tg' S S' K Ht Hs; cbn [good].
  - intros H i. rewrite <- Hs. apply H.
  - destruct e as [g|r|g|].
    + apply IH; [intros r Hr; apply Ht; right; exact Hr|]. intros i. rewrite Hs. tauto.
    + intros (g & H1 & H2 & H3). exists g. split; [rewrite Ht; [exact H1|left; reflexivity]|]. split; [apply Hs; exact H2|].
      revert H3. apply IH; [intros r' Hr; apply Ht; right; exact Hr|]. intros i. rewrite Hs. tauto.
    + intros (H1 & H2). split; [apply Hs; exact H1|]. revert H2. apply IH; [intros r' Hr; apply Ht; right; exact Hr|exact Hs].
    + apply IH; [intros r' Hr; apply Ht; right; exact Hr|exact Hs].
Qed.

Lemma good_app D : forall tg S K D' K', good tg S D K -> good tg K D' K' -> good tg S (D ++ D') K'.
Proof.
  induction D as [|e D IH]; intros tg S K D' K'; cbn [good app].
  - intros H1 H2. revert H2. apply good_ext; [auto|]. intros i. symmetry. apply H1.
  - destruct e as [g|r|g|]; eauto.
    + intros (g & H1 & H2 & H3) H. exists g. eauto.
    + intros (H1 & H2) H. eauto.
Qed.

Lemma good_target D : forall tg S K r, good tg S D K -> In (Del r) D -> exists g, tg r = Some g.
Proof.
  induction D as [|e D IH]; intros tg S K r; cbn [good In]; [tauto|].
  intros H [->|Hin].
  - destruct H as (g & H & _). eauto.
  - destruct e as [g|r'|g|].
    + eapply IH; eauto.
    + destruct H as (g & _ & _ & H). eapply IH; eauto.
    + destruct H as (_ & H). eapply IH; eauto.
    + eapply IH; eauto.
Qed.

(** Requests the router still has to answer, is working on, or has answered without the answer having arrived. *)
Definition obl (k : request_kind) (U : list message) (P : list Z) (D : list message) : list Z :=
  omap (up_req k) U ++ (if kind_eqb k RCall then P else []) ++ omap (down_req k) D.

Record CI (hf : half) (used : request_kind -> Z -> Prop) (c : session) (U : list message) (P : list Z)
    (D : list message) (K : Z -> Prop) : Prop := {
  ci_sess : exists sh, Inv c sh;
  ci_nd : forall k, in_half hf k = true -> NoDup (obl k U P D);
  ci_out : forall k r, in_half hf k = true -> In r (obl k U P D) -> In r (outstanding k c);
  ci_used : forall k r, in_half hf k = true -> In r (outstanding k c) -> used k r;
  ci_tgt : forall m r g, In m U -> tgt_req hf m = Some (r, g) -> zget r (targets hf c) = Some g;
  ci_good : good (fun r => zget r (targets hf c)) (fun g => In g (members hf c)) (map (eff_of hf) D) K;
  ci_down : Forall router_msg D }.

Lemma NoDup_app_r {A} (l1 l2 : list A) : NoDup (l1 ++ l2) -> NoDup l2.
Proof. induction l1 as [|x l IH]; cbn; [auto|]. intros H. inversion H; auto. Qed.

Lemma CI_init hf used : CI hf used session_init [] [] [] (fun _ => False).
Proof.
  constructor; try (intros; constructor); try contradiction.
  - exists []. exact Inv_init.
  - intros k _. unfold obl. cbn. destruct k; constructor.
  - intros k r _ H. exfalso. destruct k; exact H.
  - intros k r _ H. exfalso. destruct k; exact H.
  - destruct hf; cbn; tauto.
Qed.

(** Whatever the router does: it takes obligations over from the uplink (or drops them), and what it sends is
    consistent with what it remembers. *)
Lemma CI_change hf used c U P D K U' P' new K' : CI hf used c U P D K ->
  (forall k, in_half hf k = true -> exists extra, Permutation (obl k U P D) (extra ++ obl k U' P' (D ++ new))) ->
  incl U' U -> Forall router_msg new ->
  good (fun r => zget r (targets hf c)) K (map (eff_of hf) new) K' ->
  CI hf used c U' P' (D ++ new) K'.
Proof.
  intros J Hp HU Hr Hg. constructor.
  - exact (ci_sess _ _ _ _ _ _ _ J).
  - intros k Hk. destruct (Hp k Hk) as (extra & Pm). pose proof (ci_nd _ _ _ _ _ _ _ J k Hk) as N. apply (Permutation_NoDup Pm) in N. apply NoDup_app_r in N. exact N.
  - intros k r Hk Hin. destruct (Hp k Hk) as (extra & Pm). apply (ci_out _ _ _ _ _ _ _ J k r Hk).
    apply (Permutation_in r (Permutation_sym Pm)). apply in_or_app. right. exact Hin.
  - exact (ci_used _ _ _ _ _ _ _ J).
  - intros m r g Hin. apply (ci_tgt _ _ _ _ _ _ _ J). apply HU. exact Hin.
  - rewrite map_app. eapply good_app; [exact (ci_good _ _ _ _ _ _ _ J)|exact Hg].
  - apply Forall_app. split; [exact (ci_down _ _ _ _ _ _ _ J)|exact Hr].
Qed.

Lemma CI_used hf (used used' : request_kind -> Z -> Prop) c U P D K : CI hf used c U P D K -> (forall k r, used k r -> used' k r) -> CI hf used' c U P D K.
Proof. intros [A B C D' E F G] H. constructor; auto. Qed.

Lemma up_req_asks k m r : up_req k m = Some r -> asks m = Some (k, r).
Proof.
  destruct m; cbn [up_req asks]; try discriminate; try (destruct (acknowledged m); [|discriminate]).
  all: destruct k; cbn [kind_eqb]; intros H; try discriminate; injection H as ->; reflexivity.
Qed.
Lemma tgt_req_asks hf m r g : tgt_req hf m = Some (r, g) -> exists k, in_half hf k = true /\ up_req k m = Some r.
Proof.
  destruct hf, m; cbn [tgt_req]; try discriminate; intros H; injection H as <- _.
  - exists RUnsub. auto.
  - exists RUnreg. auto.
Qed.

Lemma in_targets hf c r g : zget r (targets hf c) = Some g ->
  exists k, in_half hf k = true /\ In r (outstanding k c) /\ (forall m x g', tgt_req hf m = Some (x, g') -> up_req k m = Some x) /\
  (forall m x, eff_of hf m = Del x -> down_req k m = Some x).
Proof.
  intros H. destruct hf; [exists RUnsub|exists RUnreg]; (split; [reflexivity|]; split;
    [cbn [outstanding]; apply (dget_Some_key _ Zeqb_ok); eauto|]); split; intros m x; destruct m; cbn; try discriminate; try congruence.
  all: intros g' E; injection E as <- _; reflexivity.
Qed.

(** The client sends a request under an id not used before in this connection. *)
Lemma CI_send hf used c U P D K m c' : CI hf used c U P D K -> send_track c m = (c', Ok tt) ->
  (forall k r, in_half hf k = true -> asks m = Some (k, r) -> ~ used k r) ->
  CI hf (fun k r => used k r \/ asks m = Some (k, r)) c' (U ++ [m]) P D K.
Proof.
  intros J Hs Hn. destruct (send_fields _ _ _ Hs) as (F1 & F2 & F3).
  assert (Hnew : forall k r, in_half hf k = true -> up_req k m = Some r -> ~ In r (outstanding k c)).
  { intros k r Hk Hu Hin. apply (Hn k r Hk); [apply up_req_asks; exact Hu|]. exact (ci_used _ _ _ _ _ _ _ J k r Hk Hin). }
  assert (Hpm : forall k, Permutation (obl k (U ++ [m]) P D) (match up_req k m with Some r => [r] | None => [] end ++ obl k U P D)).
  { intros k. unfold obl. rewrite omap_app. cbn [omap]. destruct (up_req k m) as [r|]; cbn [app].
    - rewrite <- app_assoc. symmetry. apply (Permutation_middle (omap (up_req k) U) _ r).
    - rewrite app_nil_r. reflexivity. }
  constructor.
  - destruct (ci_sess _ _ _ _ _ _ _ J) as [sh S]. exists ((Snd m, true) :: sh). pose proof (Inv_send c sh m true S) as H.
    rewrite Hs in H. exact H.
  - intros k Hk. apply (Permutation_NoDup (Permutation_sym (Hpm k))). pose proof (ci_nd _ _ _ _ _ _ _ J k Hk) as N.
    destruct (up_req k m) as [r|] eqn:Hu; cbn [app]; [|exact N]. constructor; [|exact N].
    intros Hin. apply (Hnew k r Hk Hu). exact (ci_out _ _ _ _ _ _ _ J k r Hk Hin).
  - intros k r Hk Hin. apply F1. apply (Permutation_in _ (Hpm k)) in Hin. apply in_app_or in Hin. destruct Hin as [Hin|Hin].
    + left. destruct (up_req k m) as [r'|]; [destruct Hin as [->|[]]; reflexivity|destruct Hin].
    + right. exact (ci_out _ _ _ _ _ _ _ J k r Hk Hin).
  - intros k r Hk Hin. apply F1 in Hin. destruct Hin as [Hu|Hin]; [right; apply up_req_asks; exact Hu|left; exact (ci_used _ _ _ _ _ _ _ J k r Hk Hin)].
  - intros m' r g Hin Ht. rewrite F3. apply in_app_or in Hin. destruct Hin as [Hin|[<-|[]]].
    + pose proof (ci_tgt _ _ _ _ _ _ _ J m' r g Hin Ht) as G. destruct (tgt_req hf m) as [[r' g']|] eqn:T; [|exact G].
      destruct (Z.eqb_spec r r') as [->|]; [|exact G]. exfalso. destruct (in_targets _ _ _ _ G) as (k & Hk & Hi & Hx & _).
      apply (Hnew k r' Hk); [eapply Hx; exact T|exact Hi].
    + rewrite Ht, Z.eqb_refl. reflexivity.
  - rewrite F2. pose proof (ci_good _ _ _ _ _ _ _ J) as G0. revert G0. apply good_ext; [|reflexivity]. intros r Hr. cbn beta. rewrite F3.
    destruct (tgt_req hf m) as [[r' g']|] eqn:T; [|reflexivity]. destruct (Z.eqb_spec r r') as [->|]; [|reflexivity].
    exfalso. destruct (good_target _ _ _ _ _ (ci_good _ _ _ _ _ _ _ J) Hr) as (g & G). cbn beta in G.
    destruct (in_targets _ _ _ _ G) as (k & Hk & Hi & Hx & _). apply (Hnew k r' Hk); [eapply Hx; exact T|exact Hi].
  - exact (ci_down _ _ _ _ _ _ _ J).
Qed.

(** The client takes the oldest message: it is accepted. *)
Lemma CI_deliver hf used c U P m D K : CI hf used c U P (m :: D) K ->
  CI hf used (fst (receive_message c m)) U P D K /\
  (message_half m = Some hf -> snd (receive_message c m) = Ok m).
Proof.
  intros J. pose proof (ci_down _ _ _ _ _ _ _ J) as R. apply Forall_cons_iff in R. destruct R as [R RD].
  destruct (ci_sess _ _ _ _ _ _ _ J) as [sh S].
  assert (S' : exists sh', Inv (fst (receive_message c m)) sh').
  { pose proof (Inv_receive c sh m S) as H. destruct (receive_message c m) as [c' r]. destruct H as [H _]. eexists. exact H. }
  assert (Hpm : forall k, Permutation (obl k U P (m :: D)) (match down_req k m with Some r => [r] | None => [] end ++ obl k U P D)).
  { intros k. unfold obl. cbn [omap]. destruct (down_req k m) as [r|]; cbn [app]; [|reflexivity].
    rewrite !app_assoc. symmetry. apply (Permutation_middle (omap (up_req k) U ++ _) _ r). }
  assert (HND : forall k, in_half hf k = true -> NoDup (obl k U P D)).
  { intros k Hk. pose proof (Permutation_NoDup (Hpm k) (ci_nd _ _ _ _ _ _ _ J k Hk)) as N. eapply NoDup_app_r. exact N. }
  pose proof (ci_good _ _ _ _ _ _ _ J) as G. cbn [map] in G.
  destruct (message_half m) as [hf'|] eqn:Hm.
  2:{ destruct m; cbn [router_msg] in R; try contradiction; discriminate. }
  assert (Hd : hf' = hf \/ hf' <> hf) by (destruct hf, hf'; auto; right; discriminate).
  destruct Hd as [->|Hne].
  - destruct (receive_mine hf c sh m S R Hm) as (c' & E & F1 & F2 & F3).
    + intros k r Hk Hr. apply (ci_out _ _ _ _ _ _ _ J k r Hk). apply (Permutation_in _ (Permutation_sym (Hpm k))).
      rewrite Hr. left. reflexivity.
    + destruct (eff_of hf m) as [g|r|g|]; cbn [good] in G; auto.
      * destruct G as (g & H1 & H2 & _). eauto.
      * tauto.
    + rewrite E in *. cbn [fst snd] in *. split; [|reflexivity]. constructor.
      * exact S'.
      * exact HND.
      * intros k r Hk Hin. apply F1; [exact Hk|]. split.
        -- apply (ci_out _ _ _ _ _ _ _ J k r Hk). apply (Permutation_in _ (Permutation_sym (Hpm k))). apply in_or_app. auto.
        -- intros Hr. pose proof (Permutation_NoDup (Hpm k) (ci_nd _ _ _ _ _ _ _ J k Hk)) as N. rewrite Hr in N. inversion N. auto.
      * intros k r Hk Hin. apply (ci_used _ _ _ _ _ _ _ J k r Hk). apply F1 in Hin; tauto.
      * intros m' r g Hin Ht. pose proof (ci_tgt _ _ _ _ _ _ _ J m' r g Hin Ht) as T. rewrite F3.
        destruct (eff_of hf m) as [x|r'|x|] eqn:He; try exact T. destruct (Z.eqb_spec r r') as [->|]; [|exact T]. exfalso.
        destruct (in_targets _ _ _ _ T) as (k & Hk & _ & Hx & Hy). pose proof (Permutation_NoDup (Hpm k) (ci_nd _ _ _ _ _ _ _ J k Hk)) as N.
        rewrite (Hy _ _ He) in N. inversion N as [|? ? Hni _]. subst. apply Hni. unfold obl. apply in_or_app. left.
        clear -Hin Hx Ht. pose proof (Hx _ _ _ Ht) as Hu. clear Hx Ht. induction U as [|y U IH]; [destruct Hin|]. cbn [omap].
        destruct Hin as [->|Hin]; [rewrite Hu; left; reflexivity|]. specialize (IH Hin). destruct (up_req k y); [right|]; exact IH.
      * assert (Hdel : forall r, In (Del r) (map (eff_of hf) D) -> zget r (targets hf c') = zget r (targets hf c)).
        { intros r Hr. rewrite F3. destruct (eff_of hf m) as [x|r'|x|] eqn:He; try reflexivity.
          destruct (Z.eqb_spec r r') as [->|]; [|reflexivity]. exfalso. cbn [good] in G. destruct G as (g & T & _). cbn beta in T.
          destruct (in_targets _ _ _ _ T) as (k & Hk & _ & Hx & Hy). pose proof (Permutation_NoDup (Hpm k) (ci_nd _ _ _ _ _ _ _ J k Hk)) as N.
          rewrite (Hy _ _ He) in N. inversion N as [|? ? Hni _]. subst. apply Hni. unfold obl. apply in_or_app. right. apply in_or_app. right.
          apply in_map_iff in Hr. destruct Hr as (m' & He' & Hin). apply Hy in He'.
          clear -Hin He'. induction D as [|y D IH]; [destruct Hin|]. cbn [omap].
          destruct Hin as [->|Hin]; [rewrite He'; left; reflexivity|]. specialize (IH Hin). destruct (down_req k y); [right|]; exact IH. }
        destruct (eff_of hf m) as [x|r'|x|] eqn:He; cbn [good] in G.
        -- revert G. apply good_ext; [exact Hdel|]. intros i. cbn beta. rewrite F2. tauto.
        -- destruct G as (g & T & Hg & G). revert G. apply good_ext; [exact Hdel|]. intros i. cbn beta in *. rewrite F2, T.
           split; intros [H1 H2]; split; congruence.
        -- destruct G as [_ G]. revert G. apply good_ext; [exact Hdel|]. intros i. cbn beta. rewrite F2. tauto.
        -- revert G. apply good_ext; [exact Hdel|]. intros i. cbn beta. rewrite F2. tauto.
      * exact RD.
  - destruct (receive_foreign hf c m R) as (F1 & F2 & F3 & F4 & F5); [congruence|].
    split; [|congruence]. constructor.
    + exact S'.
    + exact HND.
    + intros k r Hk Hin. rewrite F1 by exact Hk. apply (ci_out _ _ _ _ _ _ _ J k r Hk).
      apply (Permutation_in _ (Permutation_sym (Hpm k))). rewrite F5 by exact Hk. exact Hin.
    + intros k r Hk Hin. rewrite F1 in Hin by exact Hk. exact (ci_used _ _ _ _ _ _ _ J k r Hk Hin).
    + intros m' r g. rewrite F3. exact (ci_tgt _ _ _ _ _ _ _ J m' r g).
    + rewrite F2, F3. rewrite F4 in G. exact G.
    + exact RD.
Qed.
