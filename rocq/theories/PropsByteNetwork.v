(** * PropsByteNetwork: property theorems C95-C98 (clients with different serializers, links that carry bytes).

    [bytes_run acts] executes any schedule of the byte network; a delivery shows up as [WDelivered d r] with [d] what the
    bytes deserialize to and [r] what receive returned. *)
From Coq Require Import String Ascii List ZArith Bool Lia.
From Verif Require Import PyBase Messages IdGen Serializer Codecs MsgPack Cbor Joiner Session Broker Dealer SpecDealer Network SpecNetwork.
From Verif Require Import SpecSchema SpecCodec PropsNetwork NetworkFacts NetworkInv NetworkLive ByteNetwork SpecByteNetwork ByteNetworkFacts.
Import ListNotations.
Local Open Scope string_scope.
Local Open Scope Z_scope.
Local Open Scope list_scope.

(** C95 *)
Theorem C95_bytes_as_objects : forall acts, Forall usable acts ->
  same_trace (snd (nrun (map erase acts))) (snd (bytes_run acts)).
Proof. intros acts U. apply sim_run, U. Qed.
Print Assumptions C95_bytes_as_objects.

(** C96 *)
Theorem C96_pubsub_accepted : forall acts s d r,
  Forall usable acts -> bytes_routings acts <= 2 ^ 53 -> bytes_no_reuse PubSub acts ->
  In (WDeliver s, WDelivered d r) (snd (bytes_run acts)) ->
  exists m, d = Ok m /\ match m with Event _ | Subscribed _ | Unsubscribed _ | Published _ => r = Ok m | _ => True end.
Proof.
  intros acts s d r U L R H. destruct (delivered_bytes acts s d r U H) as (m & -> & K). exists m. split; [reflexivity|].
  refine (C69_pubsub_accepted (map erase acts) s m r _ (no_reuse_bytes _ _ R) K). rewrite routings_bytes. exact L.
Qed.
Print Assumptions C96_pubsub_accepted.

Theorem C96_rpc_accepted : forall acts s d r,
  Forall usable acts -> bytes_routings acts <= 2 ^ 53 -> bytes_no_reuse Rpc acts ->
  bytes_fresh_sessions acts -> bytes_no_progress acts ->
  In (WDeliver s, WDelivered d r) (snd (bytes_run acts)) ->
  exists m, d = Ok m /\ match m with Registered _ | Unregistered _ | Invocation _ | Result _ | Error _ => r = Ok m | _ => True end.
Proof.
  intros acts s d r U L R F P H. destruct (delivered_bytes acts s d r U H) as (m & -> & K). exists m. split; [reflexivity|].
  refine (C77_rpc_accepted (map erase acts) s m r _ (no_reuse_bytes _ _ R) (fresh_bytes _ F) (progress_bytes _ P) K). rewrite routings_bytes. exact L.
Qed.
Print Assumptions C96_rpc_accepted.

(** C97 *)
Theorem C97_pubsub_answered : forall before s m after, let acts := before ++ WSend s m :: after in
  Forall usable acts -> bytes_routings acts <= 2 ^ 53 -> bytes_no_reuse PubSub acts ->
  bytes_connected s (fst (bytes_run before)) = true -> ~ In (WLeave s) after -> bytes_idle s (fst (bytes_run acts)) ->
  match m with
  | Subscribe _ => True
  | Publish p => wants "acknowledge" (pb_options p) = true
  | _ => False
  end ->
  bytes_got_answer s m (snd (bytes_run acts)).
Proof.
  intros before s m after acts U L R C N Hi Hm. apply got_bytes; [exact U|].
  assert (U1 := proj1 (proj1 (Forall_app _ _ _) U)). subst acts.
  rewrite (connected_bytes s before U1) in C. apply (idle_bytes s _ U) in Hi. apply no_reuse_bytes in R.
  rewrite map_app in *. cbn [map erase] in *.
  apply C79_pubsub_answered; try assumption.
  - rewrite <- routings_bytes, map_app in L. exact L.
  - apply leave_bytes, N.
  - destruct m; exact Hm.
Qed.
Print Assumptions C97_pubsub_answered.

Theorem C97_rpc_answered : forall before s m after, let acts := before ++ WSend s m :: after in
  Forall usable acts -> bytes_routings acts <= 2 ^ 53 -> bytes_no_reuse Rpc acts ->
  bytes_fresh_sessions acts -> bytes_no_progress acts ->
  bytes_connected s (fst (bytes_run before)) = true -> ~ In (WLeave s) after -> bytes_idle s (fst (bytes_run acts)) ->
  match m with
  | Register _ => bytes_got_answer s m (snd (bytes_run acts))
  | Call c => bytes_got_answer s m (snd (bytes_run acts)) \/ bytes_waiting s (pyint_Z (ca_request c)) (fst (bytes_run acts))
  | _ => True
  end.
Proof.
  intros before s m after acts U L R F P C N Hi.
  assert (U1 := proj1 (proj1 (Forall_app _ _ _) U)).
  assert (G := got_bytes s m acts U). assert (W := fun r => waiting_bytes s r acts U). subst acts.
  rewrite (connected_bytes s before U1) in C. apply (idle_bytes s _ U) in Hi. apply no_reuse_bytes in R. apply fresh_bytes in F. apply progress_bytes in P.
  rewrite map_app in *. cbn [map erase] in *.
  assert (K := C79_rpc_answered (map erase before) s (normalise m) (map erase after)). cbv zeta in K.
  specialize (K ltac:(rewrite <- routings_bytes, map_app in L; exact L) R F P C (leave_bytes _ _ N) Hi).
  destruct m; try exact Logic.I; cbn [normalise] in *.
  - destruct K as [K|K]; [left; apply G, K|right; apply W, K].
  - apply G, K.
Qed.
Print Assumptions C97_rpc_answered.

Definition y_join n c := WJoin (mkDetails (PyInt n) "realm" None None) c.
Definition bytes_shown (nh : bnet * bytes_trace) : list (Z * message * bool) :=
  flat_map (fun e => match e with
                     | (WDeliver s, WDelivered (Ok m) r) => [(s, m, match r with Ok _ => true | _ => false end)]
                     | _ => [] end) (rev (snd nh)).
Definition KW : dict := [(VStr "é", VFloat 4607182418800017408); (VStr "n", VList [VInt (-5); VNone])].
Definition Y_PUB := mkPublish (PyInt 1) "a" None (Some KW) ACK.
Definition Y_CALL := mkCall (PyInt 1) "p" (Some [VStr "x"]) None [] no_bin.
Definition Y_YIELD := mkYield (PyInt 2) (Some [VDict KW]) None [] no_bin.
(** JSON, MessagePack and CBOR clients: 10 subscribes, 20 publishes; 30 registers, 10 calls. *)
Definition y_acts : list waction :=
  [y_join 10 python_json; y_join 20 msgpack; y_join 30 cbor; WSend 10 (Subscribe (mkSubscribe (PyInt 1) "a" [])); WRoute 10; WDeliver 10;
   WSend 30 (Register (mkRegister (PyInt 1) "p" [])); WSend 20 (Publish Y_PUB); WRoute 20; WRoute 30; WDeliver 20; WDeliver 10; WDeliver 30;
   WSend 10 (Call Y_CALL); WRoute 10; WDeliver 30; WSend 30 (Yield Y_YIELD); WRoute 30; WDeliver 10].
Lemma y_usable : Forall usable y_acts.
Proof.
  unfold y_acts.
  repeat match goal with |- Forall usable [] => apply Forall_nil | |- Forall usable (_ :: _) => apply Forall_cons end; try exact Logic.I.
  1: left; reflexivity.
  1: right; left; reflexivity.
  1: right; right; left; reflexivity.
  all: split; [cbn [wf_message wf_message_with]; eexists; split; [reflexivity|split; [discriminate|vm_compute; discriminate]]|].
  all: vm_compute; repeat split; repeat constructor; try discriminate; cbn; intuition discriminate.
Qed.
Lemma bytes_reused_ok hf acts : reused hf (map erase acts) = false -> bytes_no_reuse hf acts.
Proof.
  intros H before s m1 between m2 after k r -> Hk H1 H2. apply reused_ok in H.
  assert (K : In (ALeave s) (map erase between)).
  { apply (proj2 H (map erase before) s (normalise m1) (map erase between) (normalise m2) (map erase after) k r); [|exact Hk|rewrite asks_normalise; assumption..].
    rewrite map_app. cbn [map]. rewrite map_app. reflexivity. }
  apply in_map_iff in K. destruct K as (a & E & K). destruct a; try discriminate. injection E as ->. exact K.
Qed.
Example C95_case : Forall usable y_acts /\ bytes_no_reuse PubSub y_acts /\ bytes_no_reuse Rpc y_acts /\ bytes_fresh_sessions y_acts /\
  bytes_no_progress y_acts /\ bytes_shown (bytes_run y_acts) =
  [(10, Subscribed (mkSubscribed (PyInt 1) (PyInt 1)), true);
   (20, Published (mkPublished (PyInt 1) (PyInt 2)), true);
   (10, Event (mkEvent (PyInt 1) (PyInt 2) (Some []) (Some KW) []), true);
   (30, Registered (mkRegistered (PyInt 1) (PyInt 1)), true);
   (30, Invocation (mkInvocation (PyInt 2) (PyInt 1) (Some [VStr "x"]) None [] no_bin), true);
   (10, Result (mkResult (PyInt 1) (Some [VDict KW]) None [] no_bin), true)].
Proof.
  split; [apply y_usable|]. split; [apply bytes_reused_ok; reflexivity|]. split; [apply bytes_reused_ok; reflexivity|].
  split; [repeat constructor; cbn; intuition discriminate|]. split.
  - left. intros s m H. repeat (destruct H as [H|H]; [try discriminate; try (injection H as <- <-; reflexivity)|]). destruct H.
  - vm_compute. reflexivity.
Qed.
Definition idle_now (s : Z) (n : bnet) : bool :=
  match zget s (bn_clients n) with
  | Some cl => match bc_up cl, bc_down cl with [], [] => true | _, _ => false end
  | None => false
  end.
Lemma idle_now_ok s n : idle_now s n = true -> bytes_idle s n.
Proof.
  unfold idle_now, bytes_idle. destruct (zget s (bn_clients n)) as [[c se [|] [|]]|]; try discriminate. intros _. exists c, se. reflexivity.
Qed.
Example C97_case : bytes_idle 10 (fst (bytes_run y_acts)) /\ bytes_connected 10 (fst (bytes_run (firstn 13 y_acts))) = true /\
  bytes_got_answer 10 (Call Y_CALL) (snd (bytes_run y_acts)).
Proof.
  split; [|split].
  - apply idle_now_ok. vm_compute. reflexivity.
  - vm_compute. reflexivity.
  - exists (Result (mkResult (PyInt 1) (Some [VDict KW]) None [] no_bin)). split; [reflexivity|]. 
    assert (E : hd_error (snd (bytes_run y_acts)) = Some (WDeliver 10, WDelivered (Ok (Result (mkResult (PyInt 1) (Some [VDict KW]) None [] no_bin)))
      (Ok (Result (mkResult (PyInt 1) (Some [VDict KW]) None [] no_bin))))) by (vm_compute; reflexivity).
    destruct (snd (bytes_run y_acts)); [discriminate|]. injection E as ->. left. reflexivity.
Qed.

(** C98: without portability messages get lost between formats.  A MessagePack client publishes bytes (which its own
    serializer and CBOR carry) to a JSON subscriber: the publication is acknowledged, nothing is in transit any more, and
    the subscriber has got nothing but its SUBSCRIBED. *)
Theorem C98_refuted : exists acts p x,
  acts = [y_join 10 python_json; y_join 20 msgpack; WSend 10 (Subscribe (mkSubscribe (PyInt 1) "a" [])); WRoute 10; WDeliver 10;
          WSend 20 (Publish p); WRoute 20; WDeliver 20] /\
  pb_topic p = "a" /\ wf_message (Publish p) /\ msgpack_value (VList (marshal (Publish p))) /\
  bytes_idle 10 (fst (bytes_run acts)) /\ bytes_idle 20 (fst (bytes_run acts)) /\
  bytes_shown (bytes_run acts) = [(10, Subscribed x, true); (20, Published (mkPublished (PyInt 1) (PyInt 2)), true)].
Proof.
  eexists _, (mkPublish (PyInt 1) "a" (Some [VBytes ["x"%char]]) None ACK), (mkSubscribed (PyInt 1) (PyInt 1)). split; [reflexivity|].
  split; [reflexivity|]. split; [eexists; split; [reflexivity|split; [discriminate|vm_compute; discriminate]]|].
  split; [vm_compute; repeat split; repeat constructor; try discriminate; cbn; intuition discriminate|].
  split; [apply idle_now_ok; vm_compute; reflexivity|]. split; [apply idle_now_ok; vm_compute; reflexivity|vm_compute; reflexivity].
Qed.
Print Assumptions C98_refuted.
