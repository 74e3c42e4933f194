(** * HostileSim: a network with hostile clients does, for the others, what some object network does. *)
From Coq Require Import String Ascii List ZArith Bool Lia.
From Verif Require Import PyBase Encoding Messages Validate Parse IdGen Serializer Codecs Session Joiner Broker Dealer SpecDealer Network SpecNetwork NetworkFacts NetworkInv NetworkLive NetworkFlow NetworkDelivery.
From Verif Require Import DictFacts BrokerFacts SpecSchema RoundTripFacts SpecCodec CodecFacts CodecsFacts HandshakeFacts HandshakeCodec ByteNetwork SpecByteNetwork ByteNetworkFacts ByteFlowFacts.
From Verif Require Import HeaderFacts HostileNetwork SpecHostile HostileFacts.
Import ListNotations.
Local Open Scope string_scope.
Local Open Scope Z_scope.
Local Open Scope list_scope.

Definition steps (o : net) (l : list action) : net := fold_left (fun o a => fst (nstep o a)) l o.
Lemma steps_app o a b : steps o (a ++ b) = steps (steps o a) b.
Proof. apply fold_left_app. Qed.
Lemma steps_run a : steps net_init a = at_end a.
Proof.
  induction a as [|x a IH] using rev_ind; [reflexivity|]. rewrite steps_app, IH, at_end_snoc. reflexivity.
Qed.
Lemma steps_from a b : steps (at_end a) b = at_end (a ++ b).
Proof. rewrite <- !steps_run, steps_app. reflexivity. Qed.
Definition hsteps (n : bnet) (l : list haction) : bnet := fold_left (fun n a => fst (hstep n a)) l n.
Lemma hsteps_app n a b : hsteps n (a ++ b) = hsteps (hsteps n a) b.
Proof. apply fold_left_app. Qed.
Lemma hrun_snoc acts a : hrun (acts ++ [a]) = hstep_h (hrun acts) a.
Proof. unfold hrun. rewrite fold_left_app. reflexivity. Qed.
Lemma hsteps_run a : hsteps bnet_init a = fst (hrun a).
Proof.
  induction a as [|x a IH] using rev_ind; [reflexivity|]. rewrite hsteps_app, IH, hrun_snoc. unfold hstep_h. cbn [hsteps fold_left].
  destruct (hstep (fst (hrun a)) x). reflexivity.
Qed.
Lemma hsteps_from a b : hsteps (fst (hrun a)) b = fst (hrun (a ++ b)).
Proof. rewrite <- !hsteps_run, hsteps_app. reflexivity. Qed.

Definition decoded (c : codec) (bs : list bytes) : list message :=
  flat_map (fun b => match deserialize c b with Ok m => [m] | Raise _ => [] end) bs.
Lemma decoded_app c a b : decoded c (a ++ b) = decoded c a ++ decoded c b.
Proof. apply flat_map_app. Qed.
Lemma encoded_app c a b : encoded c (a ++ b) = encoded c a ++ encoded c b.
Proof. apply flat_map_app. Qed.

Lemma zset_same {V} k (v : V) d : zget k d = Some v -> zset k v d = d.
Proof. intros H. induction d as [|[k' v'] d IH]; [discriminate|]. unfold zget, zset in *. cbn in *. destruct (Z.eqb_spec k k'); [congruence|]. rewrite IH; auto. Qed.
Lemma zset_twice {V} k (v w : V) d : zset k v (zset k w d) = zset k v d.
Proof.
  induction d as [|[k' v'] d IH]; unfold zset in *; cbn [dset]; [rewrite Z.eqb_refl; reflexivity|]. destruct (k =? k') eqn:E; cbn [dset]; rewrite E; [reflexivity|].
  rewrite IH. reflexivity.
Qed.

(** The bytes that a message of an honest client travels in, and what it becomes. *)
Definition matches (m : message) (d r r0 : res message) : Prop :=
  fit m /\ (good m -> d = Ok m) /\ (forall m', d = Ok m' -> same_head m m') /\
  (r0 = Ok m -> forall m', d = Ok m' -> r = Ok m') /\ (forall e, d = Raise e -> r = Raise e).

Section Lowering.
Context (gd : Z -> bool).
Definition gdp (x : Z) : Prop := gd x = true.

Fixpoint flush (s : Z) (c : codec) (ms : list message) : list action :=
  match ms with
  | [] => []
  | m :: ms' => ADeliver s :: match serialize c m with Ok _ => [] | Raise _ => flush s c ms' end
  end.
Definition puts (s : Z) (c : codec) (b : bytes) : list action := match deserialize c b with Ok m => [APut s m] | Raise _ => [] end.
Definition low1 (n : bnet) (o : net) (a : haction) : list action :=
  match a with
  | HAct (WJoin d _) => [AJoin d]
  | HAct (WLeave s) => [ALeave s]
  | HAct (WSend s m) =>
      match zget s (bn_clients n) with
      | None => []
      | Some cl =>
          match snd (send_message (bc_codec cl) (bc_session cl) m) with
          | Raise _ => []
          | Ok b => if gd s then [ASend s (normalise m)] else puts s (bc_codec cl) b
          end
      end
  | HAct (WRoute s) =>
      match zget s (bn_clients n) with
      | Some (mkBClient c _ (b :: _) _) => match deserialize c b with Ok _ => [ARoute s] | Raise _ => [] end
      | _ => []
      end
  | HAct (WDeliver s) =>
      if gd s then
        match zget s (bn_clients n), zget s (nt_clients o) with
        | Some (mkBClient c _ _ (_ :: _)), Some cl => flush s c (cl_down cl)
        | _, _ => []
        end
      else []
  | HPut s b => match zget s (bn_clients n) with None => [] | Some cl => puts s (bc_codec cl) b end
  end.
Fixpoint low (n : bnet) (o : net) (acts : list haction) : list action :=
  match acts with
  | [] => []
  | a :: acts' => low1 n o a ++ low (fst (hstep n a)) (steps o (low1 n o a)) acts'
  end.
Definition lower (acts : list haction) : list action := low bnet_init net_init acts.
Lemma low_app : forall a n o b, low n o (a ++ b) = low n o a ++ low (hsteps n a) (steps o (low n o a)) b.
Proof.
  induction a as [|x a IH]; intros n o b; [reflexivity|]. cbn [app low hsteps fold_left]. rewrite IH, <- app_assoc, steps_app. reflexivity.
Qed.
Lemma lower_app a b : lower (a ++ b) = lower a ++ low (fst (hrun a)) (at_end (lower a)) b.
Proof. unfold lower. rewrite low_app, hsteps_run, steps_run. reflexivity. Qed.

(** ** The relation *)
Definition hlike (k : Z) (x : bclient) (y : client) : Prop :=
  if gd k then is_python_codec (bc_codec x) /\ sess_sim (bc_session x) (cl_session y) /\ link (bc_codec x) (bc_up x) (cl_up y) /\
    bc_down x = encoded (bc_codec x) (cl_down y) /\ Forall fit (cl_down y)
  else cl_up y = decoded (bc_codec x) (bc_up x).
Definition halike (d' : list (Z * bclient)) (d : list (Z * client)) : Prop :=
  Forall2 (fun e' e => fst e' = fst e /\ hlike (fst e) (snd e') (snd e)) d' d.
Definition hsim (n : bnet) (o : net) : Prop :=
  halike (bn_clients n) (nt_clients o) /\ bn_broker n = nt_broker o /\ bn_dealer n = nt_dealer o /\
  broker_ok (nt_broker o) /\ dealer_ok gdp (nt_dealer o).
Definition fitting (a : haction) : Prop :=
  match a with
  | HAct (WJoin d c) => gd (pyint_Z (det_session d)) = true -> is_python_codec c
  | HAct (WSend s m) => gd s = true -> sendable m
  | HPut s _ => gd s = false
  | _ => True
  end.

Lemma halike_get k d' d : halike d' d ->
  match zget k d', zget k d with Some x, Some y => hlike k x y | None, None => True | _, _ => False end.
Proof.
  intros H. induction H as [|[k1 x] [k2 y] d' d [A B] H IH]; cbn; [exact Logic.I|]. cbn [fst snd] in *. subst k2.
  destruct (Z.eqb_spec k k1) as [->|]; [exact B|exact IH].
Qed.
Lemma halike_set k x y d' d : halike d' d -> hlike k x y -> halike (zset k x d') (zset k y d).
Proof.
  intros H L. induction H as [|[k1 x1] [k2 y1] d' d [A B] H IH]; unfold zset; cbn [dset].
  - constructor; [split; [reflexivity|exact L]|constructor].
  - cbn [fst snd] in *. subst k2. destruct (Z.eqb_spec k k1) as [->|]; constructor; auto.
Qed.
Lemma halike_del k d' d : halike d' d -> halike (zdel k d') (zdel k d).
Proof.
  intros H. induction H as [|[k1 x1] [k2 y1] d' d [A B] H IH]; unfold zdel; cbn [ddel]; [constructor|].
  cbn [fst snd] in *. subst k2. destruct (k =? k1); [exact H|constructor; auto].
Qed.
Lemma mail_fit posts s : Forall (fun p => gdp (rt_recipient p) -> fit (rt_message p)) posts -> gd s = true -> Forall fit (mail posts s).
Proof.
  intros H G. unfold mail. induction H as [|p posts F H IH]; cbn [filter map]; [constructor|].
  destruct (Z.eqb_spec (rt_recipient p) s) as [E|]; [|exact IH]. constructor; [apply F; unfold gdp; rewrite E; exact G|exact IH].
Qed.
Lemma halike_post posts d' d : Forall (fun p => gdp (rt_recipient p) -> fit (rt_message p)) posts -> halike d' d -> halike (bpost posts d') (post posts d).
Proof.
  intros G H. induction H as [|[k1 x] [k2 y] d' d [A B] H IH]; cbn [bpost post map]; constructor; [|exact IH].
  cbn [fst snd] in *. subst k2. split; [reflexivity|]. unfold hlike in *. cbn [bc_codec bc_session bc_up bc_down cl_session cl_up cl_down].
  destruct (gd k1) eqn:Gk; [|exact B]. destruct B as (C & S & U & D & F). repeat split; auto.
  - rewrite encoded_app, D. reflexivity.
  - apply Forall_app. split; [exact F|]. apply mail_fit; assumption.
Qed.

Lemma unencodable c m e : is_python_codec c -> serialize c m = Raise e -> ~ good m.
Proof. intros C S G. destruct (good_wire c m C G) as (b & S' & _). congruence. Qed.

Lemma repeat_split {A} (x : A) k B C y : repeat x k = B ++ y :: C -> y = x /\ exists i j, B = repeat x i /\ C = repeat x j /\ k = (i + S j)%nat.
Proof.
  revert k. induction B as [|b B IH]; intros [|k] E; try discriminate; cbn in E.
  - injection E as <- <-. split; [reflexivity|]. exists 0%nat, k. auto.
  - injection E as <- E. destruct (IH _ E) as (-> & i & j & -> & -> & ->). split; [reflexivity|]. exists (S i), j. auto.
Qed.

(** The messages that [s] is sent but that its serializer cannot encode are skipped. *)
Lemma flush_spec s c b rest x : is_python_codec c -> forall down o c0 up, zget s (nt_clients o) = Some (mkClient c0 up down) ->
  Forall fit down -> encoded c down = b :: rest -> sess_sim x c0 ->
  exists k m down2 c1, flush s c down = repeat (ADeliver s) k ++ [ADeliver s] /\
    steps o (repeat (ADeliver s) k) = mkNet (zset s (mkClient c1 up (m :: down2)) (nt_clients o)) (nt_broker o) (nt_dealer o) /\
    sess_sim x c1 /\ serialize c m = Ok b /\ encoded c down2 = rest /\ Forall fit (m :: down2) /\
    forall i, (i < k)%nat -> exists m1 r, snd (nstep (steps o (repeat (ADeliver s) i)) (ADeliver s)) = Delivered m1 r /\ fit m1 /\ ~ good m1.
Proof.
  intros C. induction down as [|m down IH]; intros o c0 up G F E S; [discriminate|]. inversion F as [|? ? Fm F']; subst. cbn [flush].
  destruct (serialize c m) as [b'|e] eqn:Es.
  - exists 0%nat, m, down, c0. split; [reflexivity|]. cbn [repeat steps fold_left]. split; [rewrite (zset_same _ _ _ G); destruct o; reflexivity|].
    split; [exact S|]. unfold encoded in E. cbn [flat_map] in E. rewrite Es in E. injection E as -> E. repeat split; auto. intros i Hi. lia.
  - assert (Ng := unencodable _ _ _ C Es). assert (Hm : headed m) by (destruct Fm; [contradiction|assumption]).
    unfold encoded in E. cbn [flat_map] in E. rewrite Es in E. cbn [app] in E.
    set (c1 := fst (receive_message c0 m)). set (o1 := mkNet (zset s (mkClient c1 up down) (nt_clients o)) (nt_broker o) (nt_dealer o)).
    assert (St : nstep o (ADeliver s) = (o1, Delivered m (snd (receive_message c0 m)))).
    { cbn [nstep]. rewrite G. unfold o1, c1. destruct (receive_message c0 m). reflexivity. }
    destruct (IH o1 c1 up) as (k & m2 & down2 & c2 & Ef & Est & S2 & Es2 & Ee & F2 & L).
    { cbn [o1 nt_clients]. rewrite zget_zset, Z.eqb_refl. reflexivity. }
    { exact F'. } { exact E. } { apply lost_sim; assumption. }
    exists (Datatypes.S k), m2, down2, c2. cbn [repeat app]. rewrite Ef. split; [reflexivity|]. cbn [steps fold_left]. rewrite St. cbn [fst].
    fold (steps o1 (repeat (ADeliver s) k)). rewrite Est. cbn [o1 nt_clients nt_broker nt_dealer]. rewrite zset_twice. split; [reflexivity|].
    repeat split; auto. intros [|i] Hi.
    + cbn [repeat steps fold_left]. rewrite St. eexists _, _. split; [reflexivity|split; [exact Fm|exact Ng]].
    + cbn [repeat steps fold_left]. rewrite St. cbn [fst]. apply L. lia.
Qed.
Lemma steps_one o a : steps o [a] = fst (nstep o a).
Proof. reflexivity. Qed.

(** A delivery to an honest client. *)
Lemma deliver_sim n o s d r : hsim n o -> gd s = true -> snd (hstep n (HAct (WDeliver s))) = WDelivered d r ->
  exists k m r0, low1 n o (HAct (WDeliver s)) = repeat (ADeliver s) k ++ [ADeliver s] /\
    snd (nstep (steps o (repeat (ADeliver s) k)) (ADeliver s)) = Delivered m r0 /\ matches m d r r0 /\
    (forall i, (i < k)%nat -> exists m1 r, snd (nstep (steps o (repeat (ADeliver s) i)) (ADeliver s)) = Delivered m1 r /\ fit m1 /\ ~ good m1) /\
    hsim (fst (hstep n (HAct (WDeliver s)))) (steps o (low1 n o (HAct (WDeliver s)))).
Proof.
  intros (L & Eb & Ed & Bo & Do) Gs. cbn [hstep bytes_step low1]. rewrite Gs.
  assert (G := halike_get s _ _ L). destruct (zget s (bn_clients n)) as [[c se up down]|] eqn:Gn; [|discriminate]. destruct down as [|b down]; [discriminate|].
  destruct (zget s (nt_clients o)) as [[c0 cu cd]|] eqn:Go; [|contradiction]. unfold hlike in G. rewrite Gs in G.
  destruct G as (C & S & U & D & F). cbn [bc_codec bc_session bc_up bc_down cl_session cl_up cl_down] in *.
  destruct (flush_spec s c b down se C cd o c0 cu Go F (eq_sym D) S) as (k & m & down2 & c1 & Ef & Est & S1 & Es & Ee & F1 & Lost).
  inversion F1 as [|? ? Fm F2]; subst.
  destruct (fit_arrives c m b C Fm Es) as [FA FB].
  intros H. exists k, m, (snd (receive_message c1 m)).
  assert (St : nstep (steps o (repeat (ADeliver s) k)) (ADeliver s) =
    (mkNet (zset s (mkClient (fst (receive_message c1 m)) cu down2) (nt_clients o)) (nt_broker o) (nt_dealer o), Delivered m (snd (receive_message c1 m)))).
  { rewrite Est. cbn [nstep nt_clients]. rewrite zget_zset, Z.eqb_refl. destruct (receive_message c1 m). cbn [fst snd nt_broker nt_dealer]. rewrite zset_twice. reflexivity. }
  split; [exact Ef|]. split; [rewrite St; reflexivity|].
  assert (R : matches m d r (snd (receive_message c1 m)) /\ sess_sim (fst (receive c se b)) (fst (receive_message c1 m))).
  { revert H. unfold receive. destruct (deserialize c b) as [m'|e] eqn:De.
    - assert (Hh := FB m' eq_refl). destruct (recv_sim se c1 m m' Hh S1) as [R1 R2].
      destruct (receive_message se m') as [se' r'] eqn:Er. cbn [fst snd] in *. intros [= <- <-]. split; [|exact R1].
      split; [exact Fm|]. split; [exact FA|]. split; [exact FB|]. split; [|discriminate].
      intros R0 m2 [= <-]. exact (R2 R0).
    - cbn [snd]. intros [= <- <-]. split.
      + split; [exact Fm|]. split; [intros Gm; specialize (FA Gm); discriminate|]. split; [discriminate|]. split; [discriminate|]. intros e' [= <-]. reflexivity.
      + cbn [fst]. assert (Ng : ~ good m) by (intros Gm; specialize (FA Gm); discriminate). apply lost_sim; [destruct Fm; [contradiction|assumption]|exact S1]. }
  destruct R as [R1 R2]. split; [exact R1|]. split; [exact Lost|].
  cbn [cl_down]. rewrite Ef, steps_app, steps_one, St. cbn [fst]. destruct (receive c se b) as [se' r'] eqn:Er. cbn [fst] in R2. cbn [fst].
  split; [|split; [exact Eb|split; [exact Ed|split; [exact Bo|exact Do]]]]. cbn [bn_clients nt_clients]. apply halike_set; [exact L|].
  unfold hlike. rewrite Gs. cbn [bc_codec bc_session bc_up bc_down cl_session cl_up cl_down]. repeat split; auto.
Qed.

Ltac keep := split; [assumption|split; [reflexivity|split; [reflexivity|split; assumption]]].
Lemma hsim_step n o a : hsim n o -> fitting a -> hsim (fst (hstep n a)) (steps o (low1 n o a)).
Proof.
  intros H U. assert (K := H). destruct H as (L & Eb & Ed & Bo & Do).
  destruct a as [[det c|s|s m|s|s]|s b].
  - destruct n as [cs' b' d'], o as [cs b d]. cbn [bn_clients nt_clients bn_broker nt_broker bn_dealer nt_dealer] in *. subst b' d'.
    cbn [hstep bytes_step low1 bn_broker bn_dealer]. rewrite steps_one. cbn [nstep nt_broker nt_dealer].
    assert (Kb := b_add_session_ok b det Bo). assert (Kd := d_add_session_ok' _ d det Do).
    destruct (b_add_session b det) as [b1 rb], (d_add_session d det) as [d1 rd]. cbn [fst] in *.
    destruct rb; [|keep]. destruct rd; [|keep]. cbn [fst].
    split; [|split; [reflexivity|split; [reflexivity|split; assumption]]]. cbn [bn_clients nt_clients]. apply halike_set; [exact L|].
    unfold hlike. destruct (gd _) eqn:G; [|reflexivity]. split; [exact (U G)|]. split; [apply sess_sim_init|]. split; [constructor|]. split; [reflexivity|constructor].
  - destruct n as [cs' b' d'], o as [cs b d]. cbn [bn_clients nt_clients bn_broker nt_broker bn_dealer nt_dealer] in *. subst b' d'.
    cbn [hstep bytes_step low1 bn_broker bn_dealer]. rewrite steps_one. cbn [nstep nt_broker nt_dealer].
    assert (Kb := b_remove_session_ok b s Bo). assert (Kd := d_remove_session_ok' _ d s Do).
    destruct (b_remove_session b s) as [b1 rb], (d_remove_session d s) as [d1 rd]. cbn [fst] in *.
    destruct rb; [|keep]. destruct rd; [|keep]. cbn [fst].
    split; [|split; [reflexivity|split; [reflexivity|split; assumption]]]. cbn [bn_clients nt_clients]. apply halike_del, L.
  - assert (G := halike_get s _ _ L). cbn [hstep bytes_step low1].
    destruct (zget s (bn_clients n)) as [[c se up down]|] eqn:Gn; [|exact K]. destruct (zget s (nt_clients o)) as [[c0 cu cd]|] eqn:Go; [|contradiction].
    cbn [bc_codec bc_session bc_up bc_down] in *. unfold hlike in G. destruct (gd s) eqn:Gs.
    + destruct G as (C & S & Lu & D & F). cbn [bc_codec bc_session bc_up bc_down cl_session cl_up cl_down] in *.
      assert (Gm := sendable_normalise m (U Gs)). destruct (good_wire c _ C Gm) as (w & Sw & _).
      assert (Sm : serialize c m = Ok w) by (unfold serialize in *; rewrite marshal_normalise in Sw; exact Sw).
      unfold send_message. assert (T := send_sim se c0 m S). destruct (send_track se m) as [se' [[]|e]] eqn:Et; cbn [fst snd bind] in *.
      * destruct T as [T1 T2]. rewrite Sm. rewrite steps_one. cbn [nstep]. rewrite Go. rewrite track_normalise. cbn [cl_session cl_up cl_down].
        destruct (send_track c0 m) as [c0' r0]. cbn [fst snd] in *. subst r0. cbn [fst].
        split; [|split; [exact Eb|split; [exact Ed|split; assumption]]]. cbn [bn_clients nt_clients]. apply halike_set; [exact L|].
        unfold hlike. rewrite Gs. cbn [bc_codec bc_session bc_up bc_down cl_session cl_up cl_down]. repeat split; auto.
        apply link_app; [exact Lu|]. constructor; [split; assumption|constructor].
      * subst se'. cbn [steps fold_left]. rewrite zset_same by exact Gn. destruct n. exact K.
    + cbn [cl_up] in G. destruct (send_message c se m) as [se' [w|e]] eqn:Es; cbn [fst snd].
      * unfold puts. destruct (deserialize c w) as [m'|e'] eqn:Ew.
        -- rewrite steps_one. cbn [nstep]. rewrite Go. cbn [fst].
           split; [|split; [exact Eb|split; [exact Ed|split; assumption]]]. cbn [bn_clients nt_clients]. apply halike_set; [exact L|].
           unfold hlike. rewrite Gs. cbn [bc_codec bc_up cl_up]. rewrite decoded_app. f_equal; [exact G|]. unfold decoded. cbn [flat_map]. rewrite Ew. reflexivity.
        -- cbn [steps fold_left]. rewrite <- (zset_same _ _ _ Go) in L. split; [|split; [exact Eb|split; [exact Ed|split; assumption]]]. cbn [bn_clients].
           rewrite <- (zset_same _ _ _ Go). apply halike_set; [rewrite (zset_same _ _ _ Go) in L; exact L|].
           unfold hlike. rewrite Gs. cbn [bc_codec bc_up cl_up]. rewrite decoded_app. unfold decoded at 2. cbn [flat_map]. rewrite Ew, app_nil_r. exact G.
      * cbn [steps fold_left]. split; [|split; [exact Eb|split; [exact Ed|split; assumption]]]. cbn [bn_clients].
        rewrite <- (zset_same _ _ _ Go). apply halike_set; [exact L|]. unfold hlike. rewrite Gs. exact G.
  - assert (G := halike_get s _ _ L). cbn [hstep bytes_step low1].
    destruct (zget s (bn_clients n)) as [[c se up down]|] eqn:Gn; [|exact K]. destruct (zget s (nt_clients o)) as [[c0 cu cd]|] eqn:Go; [|contradiction].
    destruct up as [|b up]; [exact K|]. unfold hlike in G. cbn [bc_codec bc_session bc_up bc_down cl_session cl_up cl_down] in *. rewrite Eb, Ed in *.
    assert (Down : forall posts b' d', broker_ok b' -> dealer_ok gdp d' -> Forall (fun p => gdp (rt_recipient p) -> fit (rt_message p)) posts -> forall cu',
      hlike s (mkBClient c se up down) (mkClient c0 cu' cd) ->
      hsim (mkBNet (bpost posts (zset s (mkBClient c se up down) (bn_clients n))) b' d') (mkNet (post posts (zset s (mkClient c0 cu' cd) (nt_clients o))) b' d')).
    { intros posts b' d' Hb Hd Hp cu' Hl. split; [|split; [reflexivity|split; [reflexivity|split; assumption]]]. cbn [bn_clients nt_clients].
      apply halike_post; [exact Hp|]. apply halike_set; [exact L|exact Hl]. }
    destruct (gd s) eqn:Gs.
    + destruct G as (C & S & Lu & D & F). inversion Lu as [|w m up' cu' [Gm Sm] Lu']; subst.
      destruct (good_wire c m C Gm) as (w' & S' & D'). rewrite Sm in S'. injection S' as <-. rewrite D'.
      rewrite steps_one. cbn [nstep]. rewrite Go.
      assert (R := route_ok gdp (nt_broker o) (nt_dealer o) s m Bo Do Gm). destruct (route (nt_broker o) (nt_dealer o) s m) as [[b1 d1] posts]. destruct R as (Rb & Rd & Rp).
      cbn [fst]. apply Down; try assumption; [eapply Forall_impl; [|exact Rp]; intros p Hp Me; left; exact (Hp Me)|].
      unfold hlike. rewrite Gs. cbn [bc_codec bc_session bc_up bc_down cl_session cl_up cl_down]. repeat split; auto.
    + destruct (deserialize c b) as [m|e] eqn:De.
      * rewrite steps_one. cbn [nstep]. rewrite Go. unfold decoded in G. cbn [flat_map] in G. rewrite De in G. cbn [app] in G. subst cu.
        assert (R := route_any gdp (nt_broker o) (nt_dealer o) s m ltac:(unfold gdp; congruence) Bo Do). destruct (route (nt_broker o) (nt_dealer o) s m) as [[b1 d1] posts]. destruct R as (Rb & Rd & Rp).
        cbn [fst]. apply Down; try assumption; [eapply Forall_impl; [|exact Rp]; intros p Hp Me; right; exact (Hp Me)|].
        unfold hlike. rewrite Gs. reflexivity.
      * cbn [steps fold_left fst]. unfold decoded in G. cbn [flat_map] in G. rewrite De in G. cbn [app] in G.
        assert (Pn : forall (cs : list (Z * bclient)), bpost [] cs = cs).
        { induction cs as [|[k []] cs IH]; [reflexivity|]. cbn [bpost map]. fold (bpost []). f_equal; [|exact IH]. cbn. rewrite app_nil_r. reflexivity. }
        rewrite Pn. split; [|split; [reflexivity|split; [reflexivity|split; assumption]]]. cbn [bn_clients]. rewrite <- (zset_same _ _ _ Go). apply halike_set; [exact L|].
        unfold hlike. rewrite Gs. exact G.
  - destruct (gd s) eqn:Gs.
    + destruct (snd (hstep n (HAct (WDeliver s)))) as [d r|] eqn:E; [destruct (deliver_sim n o s d r K Gs E) as (? & ? & ? & _ & _ & _ & _ & R); exact R|].
      revert E. cbn [hstep bytes_step low1]. rewrite Gs. assert (G := halike_get s _ _ L).
      destruct (zget s (bn_clients n)) as [[c se up [|b down]]|] eqn:Gn; [intros _; destruct (zget s (nt_clients o)); exact K| |intros _; exact K].
      destruct (receive c se b). discriminate.
    + cbn [low1]. rewrite Gs. cbn [steps fold_left hstep bytes_step]. assert (G := halike_get s _ _ L).
      destruct (zget s (bn_clients n)) as [[c se up [|b down]]|] eqn:Gn; try exact K. destruct (zget s (nt_clients o)) as [[c0 cu cd]|] eqn:Go; [|contradiction].
      destruct (receive c se b) as [se' r]. cbn [fst]. split; [|split; [exact Eb|split; [exact Ed|split; assumption]]]. cbn [bn_clients]. rewrite <- (zset_same _ _ _ Go).
      apply halike_set; [exact L|]. unfold hlike in *. rewrite Gs in *. exact G.
  - cbn [fitting] in U. assert (G := halike_get s _ _ L). cbn [hstep low1].
    destruct (zget s (bn_clients n)) as [[c se up down]|] eqn:Gn; [|exact K]. destruct (zget s (nt_clients o)) as [[c0 cu cd]|] eqn:Go; [|contradiction].
    cbn [bc_codec bc_session bc_up bc_down fst]. unfold hlike in G. rewrite U in G. cbn [cl_up bc_codec bc_up] in G. unfold puts. destruct (deserialize c b) as [m'|e'] eqn:Ew.
    + rewrite steps_one. cbn [nstep]. rewrite Go. cbn [fst].
      split; [|split; [exact Eb|split; [exact Ed|split; assumption]]]. cbn [bn_clients nt_clients]. apply halike_set; [exact L|].
      unfold hlike. rewrite U. cbn [bc_codec bc_up cl_up]. rewrite decoded_app. f_equal; [exact G|]. unfold decoded. cbn [flat_map]. rewrite Ew. reflexivity.
    + cbn [steps fold_left]. split; [|split; [exact Eb|split; [exact Ed|split; assumption]]]. cbn [bn_clients]. rewrite <- (zset_same _ _ _ Go). apply halike_set; [exact L|].
      unfold hlike. rewrite U. cbn [bc_codec bc_up cl_up]. rewrite decoded_app. unfold decoded at 2. cbn [flat_map]. rewrite Ew, app_nil_r. exact G.
Qed.
Lemma hsim_init : hsim bnet_init net_init.
Proof. repeat split; try constructor; cbn; try discriminate; constructor. Qed.
Lemma hsim_steps : forall acts n o, hsim n o -> Forall fitting acts -> hsim (hsteps n acts) (steps o (low n o acts)).
Proof.
  induction acts as [|a acts IH]; intros n o H F; [exact H|]. inversion F; subst. cbn [low hsteps fold_left]. rewrite steps_app. apply IH; [|assumption]. apply hsim_step; assumption.
Qed.
Lemma hsim_run acts : Forall fitting acts -> hsim (fst (hrun acts)) (at_end (lower acts)).
Proof. intros F. rewrite <- hsteps_run, <- steps_run. apply hsim_steps; [apply hsim_init|exact F]. Qed.
End Lowering.
