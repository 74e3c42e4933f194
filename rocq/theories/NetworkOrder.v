(** * NetworkOrder: what one client causes another to receive arrives in order. *)
From Coq Require Import String Ascii List ZArith Bool Lia.
From Verif Require Import PyBase Messages IdGen DictFacts SpecHistory Session Joiner.
From Verif Require Import Broker SpecBroker BrokerRun BrokerFacts Dealer SpecDealer DealerRun DealerFacts Network SpecNetwork SpecOrder NetworkFacts NetworkInv NetworkLive NetworkFlow NetworkOnce NetworkOrigin.
Import ListNotations.
Local Open Scope string_scope.
Local Open Scope Z_scope.
Local Open Scope list_scope.

(** ** Lists *)
Lemma FOP_app {A} (R : A -> A -> Prop) l1 l2 :
  ForallOrdPairs R (l1 ++ l2) <-> ForallOrdPairs R l1 /\ ForallOrdPairs R l2 /\ (forall x y, In x l1 -> In y l2 -> R x y).
Proof.
  induction l1 as [|a l1 IH]; cbn [app].
  - split; [intros H; split; [constructor|split; [exact H|intros x y []]]|intros (_ & H & _); exact H].
  - split.
    + intros H. inversion H as [|? ? F1 F2]; subst. apply IH in F2. destruct F2 as (A1 & A2 & A3). apply Forall_app in F1. destruct F1 as [F1 F1'].
      split; [constructor; assumption|]. split; [exact A2|]. intros x y [<-|Hx] Hy; [rewrite Forall_forall in F1'; exact (F1' y Hy)|exact (A3 x y Hx Hy)].
    + intros (H1 & H2 & H3). inversion H1 as [|? ? F1 F2]; subst. constructor.
      * apply Forall_app. split; [exact F1|]. apply Forall_forall. intros y Hy. apply H3; [left; reflexivity|exact Hy].
      * apply IH. split; [exact F2|]. split; [exact H2|]. intros x y Hx Hy. apply H3; [right; exact Hx|exact Hy].
Qed.

Lemma map_app_split {A B} (f : A -> B) (l : list A) (a b : list B) : map f l = a ++ b -> exists l1 l2, l = l1 ++ l2 /\ map f l1 = a /\ map f l2 = b.
Proof.
  revert l. induction a as [|x a IH]; intros l E; [exists [], l; auto|]. destruct l as [|y l]; [discriminate|]. cbn in E. injection E as E1 E2.
  destruct (IH l E2) as (l1 & l2 & -> & M1 & M2). exists (y :: l1), l2. cbn. rewrite E1, M1. auto.
Qed.

(** ** The messages on their way to a session continue those it received. *)
Definition line (s : Z) (n : net) (t : ntrace) : list message := rev (inbox s t) ++ down s n.

Lemma line_step n t a s : NoDup (map fst (nt_clients n)) ->
  (exists l, line s n t = line s (fst (nstep n a)) ((a, snd (nstep n a)) :: t) ++ l) \/
  (exists s0 c m U D b' d' posts, a = ARoute s0 /\ zget s0 (nt_clients n) = Some (mkClient c (m :: U) D) /\
     route (nt_broker n) (nt_dealer n) s0 m = (b', d', posts) /\
     line s (fst (nstep n a)) ((a, snd (nstep n a)) :: t) = line s n t ++ mail posts s).
Proof.
  intros N. assert (Same : forall l : list message, exists k, l = l ++ k) by (intros l; exists []; rewrite app_nil_r; reflexivity).
  destruct a as [det|s0|s0 m0|s0|s0|s0 m0]; cbn [nstep].
  - left. destruct (b_add_session _ det) as [b' rb], (d_add_session _ det) as [d' rd]. destruct rb; [|apply Same]. destruct rd; [|apply Same].
    cbn [fst snd]. unfold line, down. cbn [inbox flat_map app nt_clients]. fold (inbox s t). rewrite zget_zset. destruct (s =? _); [|apply Same].
    cbn [cl_down]. rewrite app_nil_r. eexists. reflexivity.
  - left. destruct (b_remove_session _ s0) as [b' rb], (d_remove_session _ s0) as [d' rd]. destruct rb; [|apply Same]. destruct rd; [|apply Same].
    cbn [fst snd]. unfold line, down. cbn [inbox flat_map app nt_clients]. fold (inbox s t). rewrite zget_zdel by exact N. destruct (s =? _); [|apply Same].
    rewrite app_nil_r. eexists. reflexivity.
  - left. destruct (zget s0 (nt_clients n)) as [cl0|] eqn:G; [|apply Same]. destruct (send_track _ m0) as [c' r]. cbn [fst snd].
    unfold line, down. cbn [inbox flat_map app nt_clients]. fold (inbox s t). rewrite zget_zset. destruct (Z.eqb_spec s s0) as [->|]; [rewrite G|]; apply Same.
  - destruct (zget s0 (nt_clients n)) as [[c [|u U] D]|] eqn:G; try (left; apply Same).
    destruct (route (nt_broker n) (nt_dealer n) s0 u) as [[b' d'] posts] eqn:R. cbn [fst snd].
    destruct (zget s (nt_clients n)) as [cl|] eqn:G1.
    + right. exists s0, c, u, U, D, b', d', posts. split; [reflexivity|]. split; [exact G|]. split; [exact R|].
      unfold line, down. cbn [inbox flat_map app nt_clients]. fold (inbox s t). rewrite zget_post, zget_zset, G1. destruct (Z.eqb_spec s s0) as [->|].
      * rewrite G in G1. injection G1 as <-. cbn [option_map cl_down]. rewrite app_assoc. reflexivity.
      * cbn [option_map cl_down]. rewrite app_assoc. reflexivity.
    + left. unfold line, down. cbn [inbox flat_map app nt_clients]. fold (inbox s t). rewrite zget_post, zget_zset, G1. destruct (Z.eqb_spec s s0) as [->|]; [congruence|].
      apply Same.
  - left. destruct (zget s0 (nt_clients n)) as [[c U [|u D]]|] eqn:G; try apply Same. destruct (receive_message c u) as [c' r]. cbn [fst snd].
    unfold line, down. cbn [inbox flat_map app nt_clients]. fold (inbox s t). rewrite zget_zset. destruct (Z.eqb_spec s s0) as [->|Hne].
    + rewrite G, Z.eqb_refl. cbn [cl_down app rev]. rewrite <- app_assoc. apply Same.
    + destruct (Z.eqb_spec s0 s); [congruence|]. apply Same.
  - left. destruct (zget s0 (nt_clients n)) as [cl0|] eqn:G; [|apply Same]. cbn [fst snd].
    unfold line, down. cbn [inbox flat_map app nt_clients]. fold (inbox s t). rewrite zget_zset. destruct (Z.eqb_spec s s0) as [->|]; [rewrite G|]; apply Same.
Qed.
(** What an action has a client send. *)
Definition put_of (a : action) : option (Z * message) := match a with ASend s m | APut s m => Some (s, m) | _ => None end.
Lemma put_sending a s m : put_of a = Some (s, m) <-> sending a s m.
Proof. unfold sending. split; [destruct a; cbn; intros [= <- <-]; auto|intros [->| ->]; reflexivity]. Qed.

(** ** Ids increase *)
Record SInv (n : net) (t : ntrace) (ok : Prop) : Prop := {
  si_p : forall s, ForallOrdPairs Z.lt (publications (line s n t));
  si_i : ok -> forall s, ForallOrdPairs Z.lt (invocation_ids (line s n t)) }.

Lemma below_line acts n t s : OInv acts n t ->
  Forall (fun x => x <= b_idgen (nt_broker n)) (publications (line s n t)).
Proof.
  intros J. destruct (oi_p _ _ _ J s) as [_ F]. unfold line. rewrite publications_app in *. rewrite Forall_app in *. destruct F as [F1 F2]. split; [|exact F1].
  rewrite Forall_forall in *. intros x Hx. apply F2. unfold publications in *. rewrite in_flat_map in *. destruct Hx as (m & Hm & Hx). exists m. split; [apply in_rev; exact Hm|exact Hx].
Qed.
Lemma below_line_i acts n t s : OInv acts n t -> no_chunks acts ->
  Forall (fun x => x <= d_idgen (nt_dealer n)) (invocation_ids (line s n t)).
Proof.
  intros J H. destruct (oi_i _ _ _ J H s) as [_ F]. unfold line. rewrite invocation_ids_app in *. rewrite Forall_app in *. destruct F as [F1 F2]. split; [|exact F1].
  rewrite Forall_forall in *. intros x Hx. apply F2. unfold invocation_ids in *. rewrite in_flat_map in *. destruct Hx as (m & Hm & Hx). exists m. split; [apply in_rev; exact Hm|exact Hx].
Qed.
Lemma sorted_marks l g l' g' : ForallOrdPairs Z.lt l -> Forall (fun x => x <= g) l -> fresh_marks l' g g' -> ForallOrdPairs Z.lt (l ++ l').
Proof.
  intros N F [->|(x & -> & Hx)]; [rewrite app_nil_r; exact N|]. apply FOP_app. split; [exact N|]. split; [repeat constructor|].
  intros a b Ha [<-|[]]. rewrite Forall_forall in F. specialize (F a Ha). lia.
Qed.
Lemma SInv_run acts : routings acts <= ID_MAX -> SInv (fst (nrun acts)) (snd (nrun acts)) (no_chunks acts).
Proof.
  induction acts as [|a acts IH] using rev_ind; intros L; [split; intros; constructor|].
  assert (Le := routings_mono acts a). specialize (IH ltac:(lia)). pose proof (OInv_run acts ltac:(lia)) as J. rewrite routings_snoc in L.
  assert (NC : no_chunks (acts ++ [a]) -> no_chunks acts) by (intros H s c X; apply (H s c), has_sent_app, X).
  rewrite nrun_snoc. unfold nstep_h. destruct (nrun acts) as [n t]. cbn [fst snd] in *.
  pose proof (line_step n t a) as K. destruct (nstep n a) as [n' o]. cbn [fst snd] in *. destruct IH as [P Q]. destruct J as [(hb & Jb & Lb) (hd & Jd & Ld) Hnd Hup Hp Hi] eqn:EJ.
  split.
  - intros s. specialize (P s). destruct (K s Hnd) as [(l & E)|(s0 & c & m & U & D & b' & d' & posts & -> & G & R & ->)].
    + rewrite E, publications_app in P. apply FOP_app in P. apply P.
    + rewrite publications_app. cbn [is_route] in L. destruct (route_marks _ _ hb hd _ _ _ _ _ Jb ltac:(lia) Jd ltac:(lia) R) as (M1 & M2 & M3).
      exact (sorted_marks _ _ _ _ P (below_line _ _ _ s J) (proj1 (M3 s))).
  - intros H s. specialize (Q (NC H) s). destruct (K s Hnd) as [(l & E)|(s0 & c & m & U & D & b' & d' & posts & -> & G & R & ->)].
    + rewrite E, invocation_ids_app in Q. apply FOP_app in Q. apply Q.
    + rewrite invocation_ids_app. cbn [is_route] in L. destruct (route_marks _ _ hb hd _ _ _ _ _ Jb ltac:(lia) Jd ltac:(lia) R) as (M1 & M2 & M3).
      refine (sorted_marks _ _ _ _ Q (below_line_i _ _ _ s J (NC H)) (proj2 (M3 s) _)).
      intros c0 ->. apply (H s0). apply has_sent_app. apply (Hup s0 _ _ G). left. reflexivity.
Qed.
Theorem events_sorted acts s : routings acts <= ID_MAX -> ForallOrdPairs Z.lt (publications (rev (inbox s (snd (nrun acts))))).
Proof. intros L. pose proof (si_p _ _ _ (SInv_run acts L) s) as H. unfold line in H. rewrite publications_app in H. apply FOP_app in H. apply H. Qed.
Theorem invocations_sorted acts s : routings acts <= ID_MAX -> no_chunks acts ->
  ForallOrdPairs Z.lt (invocation_ids (rev (inbox s (snd (nrun acts))))).
Proof. intros L C. pose proof (si_i _ _ _ (SInv_run acts L) C s) as H. unfold line in H. rewrite invocation_ids_app in H. apply FOP_app in H. apply H. Qed.

(** ** What one routed message makes the router send *)
Definition one_or_pair (l : list message) : Prop :=
  l = [] \/ (exists x, l = [x]) \/ exists a e, l = [Published a; Event e].

Lemma route_rise b d s m b' d' posts s' : Inv1 b -> DInv1 d -> route b d s m = (b', d', posts) ->
  one_or_pair (mail posts s') /\ Forall (gives_rise s m s') (mail posts s').
Proof.
  intros Jb Jd R. pose proof (bstep_outcome b (BMsg s m) Jb) as Ob. pose proof (dstep_outcome d (DMsg s m) Jd) as Od. cbn [bstep dstep] in Ob, Od.
  assert (Z0 : one_or_pair (mail [] s') /\ Forall (gives_rise s m s') (mail [] s')) by (split; [left; reflexivity|constructor]).
  assert (Z1 : forall rt, gives_rise s m (rt_recipient rt) (rt_message rt) -> one_or_pair (mail [rt] s') /\ Forall (gives_rise s m s') (mail [rt] s')).
  { intros [x r] H. rewrite mail_one. destruct (Z.eqb_spec r s') as [->|]; [|exact Z0]. split; [right; left; eauto|constructor; [exact H|constructor]]. }
  destruct m; cbn [route] in R; try (injection R as <- <- <-; exact Z0).
  all: try (match type of R with context [d_receive_message _ _ _] =>
    destruct (d_receive_message d s _) as [d1 r1]; injection R as <- <- <-; destruct r1 as [rt|]; [|exact Z0]; apply Z1; cbn [fst snd d_out_of] in Od;
    inversion Od; subst; cbn [rt_recipient rt_message gives_rise invocation_for]; auto 6 end).
  all: try (match type of R with context [b_receive_message _ _ _] =>
    destruct (b_receive_message b s _) as [b1 r1]; injection R as <- <- <-; destruct r1 as [rt|]; [|exact Z0]; apply Z1; cbn [fst snd out_of] in Ob;
    inversion Ob; subst; cbn [rt_recipient rt_message gives_rise]; auto end).
  pose proof (bstep_outcome b (BPub s m) Jb) as Op. cbn [bstep] in Op. destruct (b_receive_publish b s m) as [b1 r1]. injection R as <- <- <-.
  destruct r1 as [p|]; [|exact Z0]. cbn [fst snd out_of] in Op. inversion Op; subst. cbn [pu_ack pu_event pu_recipients]. clear Z0 Z1 Ob Od Op.
  assert (A : exists l, mail (match (if truthy (sget_default "acknowledge" (VBool false) (pb_options m)) then Some (mkRouted (Published (mkPublished (pb_request m) (PyInt pid))) s) else None) with Some rt => [rt] | None => [] end) s' = l /\
    (l = [] \/ exists a, l = [Published a]) /\ Forall (gives_rise s (Publish m) s') l).
  { eexists. split; [reflexivity|]. destruct (truthy _); [|split; [left; reflexivity|constructor]]. rewrite mail_one. destruct (Z.eqb_spec s s') as [->|]; [|split; [left; reflexivity|constructor]].
    split; [right; eexists; reflexivity|]. constructor; [split; reflexivity|constructor]. }
  destruct A as (l & A & A1 & A2). rewrite mail_app, A.
  match goal with |- context [l ++ ?z] => assert (E : exists k, z = k /\ (k = [] \/ exists e, k = [Event e]) /\ Forall (gives_rise s (Publish m) s') k) end.
  { eexists. split; [reflexivity|]. destruct (tget _ _) as [loc|]; [|split; [left; reflexivity|constructor]]. destruct (at_ b loc) as [sub|] eqn:E; cbn [option_map]; [|split; [left; reflexivity|constructor]].
    destruct Jb as (W & _). rewrite mail_events by exact (sh_nd_subs _ W _ _ E). destruct (in_dec _ _ _); [|split; [left; reflexivity|constructor]].
    split; [right; eexists; reflexivity|]. constructor; [split; reflexivity|constructor]. }
  destruct E as (k & -> & E1 & E2). split; [|apply Forall_app; split; assumption].
  destruct A1 as [->|[a ->]], E1 as [->|[e ->]]; cbn [app]; unfold one_or_pair; eauto 6.
Qed.

(** ** Order *)
Section Order.
Variable all : list action.

Definition caused (s : Z) (p : nat * message) : Prop := exists c m, sent_at all (fst p) c m /\ gives_rise c m s (snd p).

Record Ord (k : nat) (n : net) (t : ntrace) (up seen : Z -> list (nat * message)) : Prop := {
  or_up : forall s cl, zget s (nt_clients n) = Some cl ->
    map snd (up s) = cl_up cl /\ ForallOrdPairs (fun p q => (fst p < fst q)%nat) (up s) /\
    Forall (fun p => (fst p < k)%nat /\ sent_at all (fst p) s (snd p)) (up s);
  or_seen : forall s, map snd (seen s) = line s n t /\ Forall (caused s) (seen s) /\ ForallOrdPairs (precedes all) (seen s);
  or_lt : forall s, Forall (fun p => (fst p < k)%nat) (seen s);
  or_bound : forall s c cl p q m, zget c (nt_clients n) = Some cl -> In p (seen s) -> sent_at all (fst p) c m -> In q (up c) -> (fst p < fst q)%nat }.

Lemma sent_at_fun i c m c' m' : sent_at all i c m -> sent_at all i c' m' -> c = c' /\ m = m'.
Proof.
  intros [(a & H & P) _] [(a' & H' & P') _]. rewrite H in H'. injection H' as <-. apply put_sending in P, P'. rewrite P in P'. injection P'. auto.
Qed.

Lemma shrink k n t n' t' up seen : Ord k n t up seen ->
  (forall s, exists l, line s n t = line s n' t' ++ l) ->
  exists seen', (forall s, map snd (seen' s) = line s n' t' /\ Forall (caused s) (seen' s) /\ ForallOrdPairs (precedes all) (seen' s) /\
    Forall (fun p => (fst p < k)%nat) (seen' s) /\ incl (seen' s) (seen s)).
Proof.
  intros O H. exists (fun s => firstn (length (line s n' t')) (seen s)). intros s. destruct (H s) as [l E]. destruct (or_seen _ _ _ _ _ O s) as (A & B & C).
  pose proof (or_lt _ _ _ _ _ O s) as D. rewrite E in A. apply map_app_split in A. destruct A as (l1 & l2 & Es & M1 & M2). rewrite Es in *.
  assert (Len : length (line s n' t') = length l1) by (rewrite <- M1; apply map_length). rewrite Len, firstn_app, firstn_all, Nat.sub_diag. cbn [firstn]. rewrite app_nil_r.
  split; [exact M1|]. apply Forall_app in B, D. apply FOP_app in C. split; [apply B|]. split; [apply C|]. split; [apply D|]. intros x Hx. apply in_or_app. auto.
Qed.

Lemma Ord_step before a after up seen : all = before ++ a :: after ->
  Ord (length before) (fst (nrun before)) (snd (nrun before)) up seen ->
  exists up' seen', Ord (length (before ++ [a])) (fst (nrun (before ++ [a]))) (snd (nrun (before ++ [a]))) up' seen'.
Proof.
  intros Hall O. pose proof (From_run before) as F. rewrite nrun_snoc. unfold nstep_h. rewrite app_length. cbn [length]. rewrite Nat.add_1_r.
  destruct (nrun before) as [n t] eqn:RB. cbn [fst snd] in *. pose proof (fr_nd _ _ F) as Hnd.
  pose proof (fun s => line_step n t a s Hnd) as K.
  assert (NR : (forall s0, a <> ARoute s0) -> forall s, exists l, line s n t = line s (fst (nstep n a)) ((a, snd (nstep n a)) :: t) ++ l).
  { intros H s. destruct (K s) as [X|(s0 & ? & ? & ? & ? & ? & ? & ? & X & _)]; [exact X|]. destruct (H s0 X). }
  assert (Rest : (forall s0, a <> ARoute s0) -> (forall s cl, zget s (nt_clients (fst (nstep n a))) = Some cl ->
      (exists cl0, zget s (nt_clients n) = Some cl0 /\ cl_up cl = cl_up cl0) \/ cl_up cl = [] \/
      (exists m cl0, put_of a = Some (s, m) /\ zget s (nt_clients n) = Some cl0 /\ cl_up cl = cl_up cl0 ++ [m])) ->
    exists up' seen', Ord (S (length before)) (fst (nstep n a)) ((a, snd (nstep n a)) :: t) up' seen').
  { intros H1 H2. destruct (shrink _ _ _ _ _ _ _ O (NR H1)) as (seen' & HS).
    exists (fun s => match zget s (nt_clients (fst (nstep n a))) with
                     | Some cl => if Nat.eqb (length (cl_up cl)) (length (up s)) && zmem s (nt_clients n) then up s
                                  else match put_of a with
                                       | Some (s', m) => if (s =? s') && Nat.eqb (length (cl_up cl)) (S (length (up s))) && zmem s (nt_clients n) then up s ++ [(length before, m)] else []
                                       | _ => []
                                       end
                     | None => []
                     end), seen'.
    assert (U : forall s cl, zget s (nt_clients (fst (nstep n a))) = Some cl -> exists u,
       (if Nat.eqb (length (cl_up cl)) (length (up s)) && zmem s (nt_clients n) then up s
                                  else match put_of a with
                                       | Some (s', m) => if (s =? s') && Nat.eqb (length (cl_up cl)) (S (length (up s))) && zmem s (nt_clients n) then up s ++ [(length before, m)] else []
                                       | _ => []
                                       end) = u /\ map snd u = cl_up cl /\
       ((u = up s /\ zmem s (nt_clients n) = true) \/ u = [] \/ exists m, put_of a = Some (s, m) /\ zmem s (nt_clients n) = true /\ u = up s ++ [(length before, m)])).
    { intros s cl G. eexists. split; [reflexivity|]. destruct (H2 s cl G) as [(cl0 & G0 & E)|[E|(m & cl0 & Ea & G0 & E)]].
      - destruct (or_up _ _ _ _ _ O s cl0 G0) as (A & _). assert (L : length (cl_up cl) = length (up s)) by (rewrite E, <- A; apply map_length).
        rewrite L, Nat.eqb_refl. rewrite zmem_zget, G0. cbn [andb]. split; [congruence|]. left. auto.
      - rewrite E. cbn [length]. destruct (Nat.eqb_spec 0 (length (up s))) as [L|L]; cbn [andb].
        + rewrite zmem_zget. destruct (zget s (nt_clients n)) as [cl0|]; [split; [|left; auto]|].
          * destruct (up s); [reflexivity|discriminate].
          * destruct (put_of a) as [[]|]; cbn [andb]; rewrite ?andb_false_r; split; auto.
        + cbn [Nat.eqb]. destruct (put_of a) as [[]|]; rewrite ?andb_false_r; split; auto.
      - destruct (or_up _ _ _ _ _ O s cl0 G0) as (A & _). assert (L : length (cl_up cl) = S (length (up s))) by (rewrite E, app_length, <- A, map_length; cbn; lia).
        rewrite L. destruct (Nat.eqb_spec (S (length (up s))) (length (up s))); [lia|]. cbn [andb]. rewrite Ea, Z.eqb_refl, Nat.eqb_refl, zmem_zget, G0. cbn [andb].
        split; [rewrite map_app, A, E; reflexivity|]. right. right. exists m. auto. }
    assert (OldUp : forall s p, zmem s (nt_clients n) = true -> In p (up s) -> (fst p < length before)%nat /\ sent_at all (fst p) s (snd p)).
    { intros s p Hm Hp. rewrite zmem_zget in Hm. destruct (zget s (nt_clients n)) as [cl|] eqn:G; [|discriminate]. destruct (or_up _ _ _ _ _ O s cl G) as (_ & _ & X).
      rewrite Forall_forall in X. exact (X p Hp). }
    constructor.
    - intros s cl G. rewrite G. destruct (U s cl G) as (u & -> & M & C). split; [exact M|]. destruct C as [[-> Hm]|[->|(m & Ea & Hm & ->)]]; [| split; constructor|].
      + split.
        * rewrite zmem_zget in Hm. destruct (zget s (nt_clients n)) as [cl0|] eqn:G0; [|discriminate]. apply (or_up _ _ _ _ _ O s cl0 G0).
        * apply Forall_forall. intros p Hp. destruct (OldUp s p Hm Hp). split; [lia|assumption].
      + split.
        * apply FOP_app. split; [|split; [repeat constructor|]].
          -- rewrite zmem_zget in Hm. destruct (zget s (nt_clients n)) as [cl0|] eqn:G0; [|discriminate]. apply (or_up _ _ _ _ _ O s cl0 G0).
          -- intros x y Hx [<-|[]]. cbn [fst]. apply (OldUp s x Hm Hx).
        * apply Forall_app. split.
          -- apply Forall_forall. intros p Hp. destruct (OldUp s p Hm Hp). split; [lia|assumption].
          -- constructor; [|constructor]. cbn [fst snd]. split; [lia|]. rewrite Hall. split.
             ++ exists a. split; [rewrite nth_error_app2, Nat.sub_diag by lia; reflexivity|apply put_sending, Ea].
             ++ rewrite firstn_app, Nat.sub_diag, firstn_all. cbn [firstn]. rewrite app_nil_r, RB. exact Hm.
    - intros s. destruct (HS s) as (A & B & C & _). auto.
    - intros s. destruct (HS s) as (_ & _ & _ & D & _). eapply Forall_impl; [|exact D]. cbn. lia.
    - intros s c cl p q m G Hp Sp Hq. rewrite G in Hq. destruct (HS s) as (_ & _ & _ & D & I0). rewrite Forall_forall in D. pose proof (D p Hp) as Lp. apply I0 in Hp.
      destruct (U c cl G) as (u & Eu & _ & C). rewrite Eu in Hq. destruct C as [[-> Hm]|[->|(m0 & Ea & Hm & ->)]]; [|destruct Hq|].
      + rewrite zmem_zget in Hm. destruct (zget c (nt_clients n)) as [cl0|] eqn:G0; [|discriminate]. exact (or_bound _ _ _ _ _ O s c cl0 p q m G0 Hp Sp Hq).
      + apply in_app_or in Hq. destruct Hq as [Hq|[<-|[]]]; [|exact Lp].
        rewrite zmem_zget in Hm. destruct (zget c (nt_clients n)) as [cl0|] eqn:G0; [|discriminate]. exact (or_bound _ _ _ _ _ O s c cl0 p q m G0 Hp Sp Hq). }
  assert (Quiet : fst (nstep n a) = n -> snd (nstep n a) = Quiet -> exists up' seen', Ord (S (length before)) (fst (nstep n a)) ((a, snd (nstep n a)) :: t) up' seen').
  { intros -> ->. exists up, seen. destruct O as [A B C D]. constructor.
    - intros s cl G. destruct (A s cl G) as (A1 & A2 & A3). split; [exact A1|]. split; [exact A2|]. eapply Forall_impl; [|exact A3]. cbn. intros p [X Y]. split; [lia|exact Y].
    - intros s. destruct (B s) as (B1 & B2). split; [|exact B2]. rewrite B1. unfold line. cbn [inbox flat_map]. destruct a; reflexivity.
    - intros s. eapply Forall_impl; [|exact (C s)]. cbn. lia.
    - exact D. }
  enough (X : exists up' seen', Ord (S (length before)) (fst (nstep n a)) ((a, snd (nstep n a)) :: t) up' seen') by (destruct (nstep n a); exact X).
  destruct a as [det|s0|s0 m0|s0|s0|s0 m0].
  - apply Rest; [discriminate|]. cbn [nstep]. destruct (b_add_session _ det) as [b' rb], (d_add_session _ det) as [d' rd]. intros s cl.
    destruct rb; [|eauto]. destruct rd; [|eauto]. cbn [fst nt_clients]. rewrite zget_zset. destruct (s =? _); [intros [= <-]; auto|eauto].
  - apply Rest; [discriminate|]. cbn [nstep]. destruct (b_remove_session _ s0) as [b' rb], (d_remove_session _ s0) as [d' rd]. intros s cl.
    destruct rb; [|eauto]. destruct rd; [|eauto]. cbn [fst nt_clients]. rewrite zget_zdel by exact Hnd. destruct (s =? _); [discriminate|eauto].
  - apply Rest; [discriminate|]. cbn [nstep]. intros s cl. destruct (zget s0 (nt_clients n)) as [cl0|] eqn:G; [|eauto]. destruct (send_track _ m0) as [c' r]. cbn [fst nt_clients].
    rewrite zget_zset. destruct (Z.eqb_spec s s0) as [->|]; [|eauto]. intros [= <-]. cbn [cl_up]. destruct r; [|eauto]. right. right. exists m0, cl0. auto.
  - destruct (zget s0 (nt_clients n)) as [[c [|u U] D]|] eqn:G; try (apply Quiet; cbn [nstep]; rewrite G; reflexivity).
    destruct (or_up _ _ _ _ _ O s0 _ G) as (A1 & A2 & A3). cbn [cl_up] in A1. destruct (up s0) as [|[i u'] U'] eqn:EU; [discriminate|]. cbn [map snd] in A1. injection A1 as -> A1.
    inversion A2 as [|? ? A2a A2b]; subst. inversion A3 as [|? ? A3a A3b]; subst. cbn [fst snd] in *.
    destruct (route (nt_broker n) (nt_dealer n) s0 u) as [[b' d'] posts] eqn:R.
    assert (Hb : Inv1 (nt_broker n)) by apply (fr_b _ _ F). assert (Hd : DInv1 (nt_dealer n)) by apply (fr_d _ _ F).
    assert (EQ : forall s, exists l, line s (fst (nstep n (ARoute s0))) ((ARoute s0, snd (nstep n (ARoute s0))) :: t) = line s n t ++ l /\ one_or_pair l /\ Forall (gives_rise s0 u s) l).
    { intros s. cbn [nstep]. rewrite G, R. cbn [fst snd]. unfold line, down. cbn [inbox flat_map app nt_clients]. fold (inbox s t). rewrite zget_post, zget_zset.
      destruct (zget s (nt_clients n)) as [cl|] eqn:G1.
      - exists (mail posts s). split; [|exact (route_rise _ _ _ _ _ _ _ s Hb Hd R)]. destruct (Z.eqb_spec s s0) as [->|].
        + rewrite G in G1. injection G1 as <-. cbn [option_map cl_down]. rewrite app_assoc. reflexivity.
        + cbn [option_map cl_down]. rewrite app_assoc. reflexivity.
      - exists []. split; [|split; [left; reflexivity|constructor]]. destruct (Z.eqb_spec s s0) as [->|]; [congruence|]. cbn [option_map]. rewrite !app_nil_r. reflexivity. }
    assert (Cl : forall s cl, zget s (nt_clients (fst (nstep n (ARoute s0)))) = Some cl -> exists cl0, zget s (nt_clients n) = Some cl0 /\ cl_up cl = if s =? s0 then map snd U' else cl_up cl0).
    { intros s cl. cbn [nstep]. rewrite G, R. cbn [fst nt_clients]. rewrite zget_post, zget_zset. destruct (Z.eqb_spec s s0) as [->|].
      - intros [= <-]. eexists. split; [exact G|reflexivity].
      - destruct (zget s (nt_clients n)) as [cl0|]; [|discriminate]. intros [= <-]. exists cl0. auto. }
    set (n' := fst (nstep n (ARoute s0))) in *. set (t' := (ARoute s0, snd (nstep n (ARoute s0))) :: t) in *.
    set (fresh := fun s => skipn (length (line s n t)) (line s n' t')).
    assert (Fr : forall s, line s n' t' = line s n t ++ fresh s /\ one_or_pair (fresh s) /\ Forall (gives_rise s0 u s) (fresh s)).
    { intros s. destruct (EQ s) as (l & E & E1 & E2). assert (X : fresh s = l). { unfold fresh. rewrite E, skipn_app, skipn_all, Nat.sub_diag. reflexivity. } rewrite X. auto. }
    exists (fun s => if s =? s0 then U' else up s), (fun s => seen s ++ map (fun x => (i, x)) (fresh s)). destruct A3a as [A3a A3c].
    constructor.
    + intros s cl Gs. destruct (Cl s cl Gs) as (cl0 & G0 & ->). destruct (Z.eqb_spec s s0) as [->|].
      * split; [reflexivity|]. split; [exact A2b|]. eapply Forall_impl; [|exact A3b]. cbn. intros p [X Y]. split; [lia|exact Y].
      * destruct (or_up _ _ _ _ _ O s cl0 G0) as (B1 & B2 & B3). split; [exact B1|]. split; [exact B2|]. eapply Forall_impl; [|exact B3]. cbn. intros p [X Y]. split; [lia|exact Y].
    + intros s. destruct (Fr s) as (E & E1 & E2). destruct (or_seen _ _ _ _ _ O s) as (B1 & B2 & B3). rewrite map_app, map_map. cbn [snd]. rewrite map_id, B1, E. split; [reflexivity|].
      split.
      * apply Forall_app. split; [exact B2|]. apply Forall_forall. intros p Hp. apply in_map_iff in Hp. destruct Hp as (x & <- & Hx). exists s0, u. cbn [fst snd]. split; [exact A3c|].
        rewrite Forall_forall in E2. exact (E2 x Hx).
      * apply FOP_app. split; [exact B3|]. split.
        -- destruct E1 as [->|[[x ->]|(aa & e & ->)]]; cbn [map]; [constructor|repeat constructor|].
           constructor; [constructor; [|constructor]|repeat constructor]. intros c1 m1 m2 _ _. right. cbn [fst snd]. split; [reflexivity|eauto].
        -- intros p q Hp Hq. apply in_map_iff in Hq. destruct Hq as (x & <- & Hx). intros c1 m1 m2 S1 S2. left. cbn [fst].
           destruct (sent_at_fun _ _ _ _ _ A3c S2) as [<- <-].
           refine (or_bound _ _ _ _ _ O s s0 _ p (i, u) m1 G Hp S1 _). rewrite EU. left. reflexivity.
    + intros s. apply Forall_app. split; [eapply Forall_impl; [|exact (or_lt _ _ _ _ _ O s)]; cbn; lia|]. apply Forall_forall. intros p Hp. apply in_map_iff in Hp.
      destruct Hp as (x & <- & Hx). cbn [fst]. lia.
    + intros s c1 cl p q m Gc Hp Sp Hq. destruct (Cl c1 cl Gc) as (cl0 & G0 & _). apply in_app_or in Hp. destruct Hp as [Hp|Hp].
      * refine (or_bound _ _ _ _ _ O s c1 cl0 p q m G0 Hp Sp _). destruct (Z.eqb_spec c1 s0) as [->|]; [rewrite EU; right; exact Hq|exact Hq].
      * apply in_map_iff in Hp. destruct Hp as (x & <- & Hx). cbn [fst] in *. destruct (sent_at_fun _ _ _ _ _ A3c Sp) as [<- <-]. rewrite Z.eqb_refl in Hq.
        rewrite Forall_forall in A2a. exact (A2a q Hq).
  - apply Rest; [discriminate|]. cbn [nstep]. intros s cl. destruct (zget s0 (nt_clients n)) as [[c U [|u D]]|] eqn:G; try (cbn [fst]; eauto; fail).
    destruct (receive_message c u) as [c' r]. cbn [fst nt_clients]. rewrite zget_zset. destruct (Z.eqb_spec s s0) as [->|]; [|eauto]. intros [= <-]. cbn [cl_up]. left. eexists. split; [exact G|reflexivity].
  - apply Rest; [discriminate|]. cbn [nstep]. intros s cl. destruct (zget s0 (nt_clients n)) as [cl0|] eqn:G; [|eauto]. cbn [fst nt_clients].
    rewrite zget_zset. destruct (Z.eqb_spec s s0) as [->|]; [|eauto]. intros [= <-]. cbn [cl_up]. right. right. exists m0, cl0. auto.
Qed.

Lemma Ord_run before after : all = before ++ after -> exists up seen, Ord (length before) (fst (nrun before)) (snd (nrun before)) up seen.
Proof.
  revert after. induction before as [|a before IH] using rev_ind; intros after E.
  - exists (fun _ => []), (fun _ => []). constructor; cbn; try discriminate; intros; repeat constructor; contradiction.
  - rewrite <- app_assoc in E. cbn [app] in E. destruct (IH _ E) as (up & seen & O). exact (Ord_step before a after up seen E O).
Qed.
End Order.

Theorem in_order acts s : exists h, history acts s h /\ ForallOrdPairs (precedes acts) h.
Proof.
  destruct (Ord_run acts acts [] (eq_sym (app_nil_r acts))) as (up & seen & O). destruct (or_seen _ _ _ _ _ _ O s) as (A & B & C).
  unfold line in A. apply map_app_split in A. destruct A as (l1 & l2 & E & M1 & M2). rewrite E in *. apply Forall_app in B. apply FOP_app in C.
  exists l1. split; [split; [exact M1|apply B]|apply C].
Qed.

Theorem same_order acts s1 s2 p q a1 a2 a3 b1 b2 b3 : routings acts <= ID_MAX ->
  publications (rev (inbox s1 (snd (nrun acts)))) = a1 ++ p :: a2 ++ q :: a3 ->
  publications (rev (inbox s2 (snd (nrun acts)))) <> b1 ++ q :: b2 ++ p :: b3.
Proof.
  intros L E1 E2. pose proof (events_sorted acts s1 L) as H1. pose proof (events_sorted acts s2 L) as H2. rewrite E1 in H1. rewrite E2 in H2.
  assert (K : forall x y l1 l2 l3, ForallOrdPairs Z.lt (l1 ++ x :: l2 ++ y :: l3) -> x < y).
  { intros x y l1 l2 l3 H. apply FOP_app in H. destruct H as (_ & H & _). inversion H as [|? ? F _]; subst. apply Forall_app in F. destruct F as [_ F]. inversion F; assumption. }
  apply K in H1. apply K in H2. lia.
Qed.

Theorem two_events a1 y1 c p1 a2 y2 p2 a3 s l1 e2 l2 e1 l3 :
  let acts := a1 ++ y1 :: a2 ++ y2 :: a3 in sending y1 c (Publish p1) -> sending y2 c (Publish p2) ->
  (forall b x y p b', acts = b ++ x :: b' -> sending x y (Publish p) -> pb_args p = pb_args p1 /\ pb_kwargs p = pb_kwargs p1 -> length b = length a1) ->
  (forall b x y p b', acts = b ++ x :: b' -> sending x y (Publish p) -> pb_args p = pb_args p2 /\ pb_kwargs p = pb_kwargs p2 -> length b = length (a1 ++ y1 :: a2)) ->
  pb_args p1 = ev_args e1 /\ pb_kwargs p1 = ev_kwargs e1 -> pb_args p2 = ev_args e2 /\ pb_kwargs p2 = ev_kwargs e2 ->
  rev (inbox s (snd (nrun acts))) <> l1 ++ Event e2 :: l2 ++ Event e1 :: l3.
Proof.
  intros acts X1 X2 U1 U2 [P1 P1'] [P2 P2'] E. destruct (in_order acts s) as (h & [M C] & O). rewrite E in M.
  apply map_app_split in M. destruct M as (h1 & h2 & -> & _ & M). destruct h2 as [|[i2 x2] h2]; [discriminate|]. cbn [map snd] in M. injection M as -> M.
  apply map_app_split in M. destruct M as (h3 & h4 & -> & _ & M). destruct h4 as [|[i1 x1] h4]; [discriminate|]. cbn [map snd] in M. injection M as -> _.
  apply Forall_app in C. destruct C as [_ C]. inversion C as [|? ? C2 C']; subst. apply Forall_app in C'. destruct C' as [_ C']. inversion C' as [|? ? C1 _]; subst. clear C C'.
  apply FOP_app in O. destruct O as (_ & O & _). inversion O as [|? ? F _]; subst. apply Forall_app in F. destruct F as [_ F]. inversion F as [|? ? F' _]; subst. clear O F.
  assert (K : forall i e, (exists c m, sent_at acts i c m /\ gives_rise c m s (Event e)) -> exists b a x p b', acts = b ++ a :: b' /\ sending a x (Publish p) /\ length b = i /\ pb_args p = ev_args e /\ pb_kwargs p = ev_kwargs e /\ sent_at acts i x (Publish p)).
  { intros i e (x & m & Hs & G). destruct m; cbn [gives_rise] in G; try contradiction. destruct G as [G1 G2]. pose proof (proj1 Hs) as (a & Hn & P). apply nth_error_split in Hn.
    destruct Hn as (b & b' & -> & Lb). exists b, a, x, m, b'. auto 8. }
  destruct (K _ _ C1) as (b & x0 & x & p & b' & Eb & Pb & Lb & Q1 & Q2 & S1). destruct (K _ _ C2) as (d & y0 & y & q & d' & Ed & Pd & Ld & Q3 & Q4 & S2).
  assert (L1 := U1 _ _ _ _ _ Eb Pb (conj (eq_trans Q1 (eq_sym P1)) (eq_trans Q2 (eq_sym P1')))).
  assert (L2 := U2 _ _ _ _ _ Ed Pd (conj (eq_trans Q3 (eq_sym P2)) (eq_trans Q4 (eq_sym P2')))).
  rewrite app_length in L2. cbn [length] in L2.
  assert (X : x = c).
  { destruct S1 as [(a & S1 & P) _]. unfold acts in S1. rewrite nth_error_app2, <- Lb, L1, Nat.sub_diag in S1 by lia. injection S1 as <-.
    apply put_sending in P, X1. rewrite X1 in P. injection P. auto. }
  assert (Y : y = c).
  { destruct S2 as [(a & S2 & P) _]. unfold acts in S2. rewrite app_comm_cons, app_assoc in S2. rewrite nth_error_app2 in S2 by (rewrite app_length; cbn [length]; lia).
    rewrite <- Ld, L2, app_length in S2. cbn [length] in S2. rewrite Nat.sub_diag in S2. injection S2 as <-. apply put_sending in P, X2. rewrite X2 in P. injection P. auto. }
  subst x y. destruct (F' c _ _ S2 S1) as [H|[H _]]; cbn [fst] in *; lia.
Qed.
