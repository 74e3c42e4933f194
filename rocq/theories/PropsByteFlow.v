(** * PropsByteFlow: property theorem C108: what is sent arrives, in order, when links carry bytes and clients use
    different serializers.  (C100-C102, C106 and C107 for the byte network.) *)
From Coq Require Import String Ascii List ZArith Bool Lia.
From Verif Require Import PyBase Messages IdGen Serializer Codecs MsgPack Cbor Joiner Session Broker Dealer SpecDealer Network SpecNetwork SpecOrder.
From Verif Require Import SpecSchema SpecCodec NetworkInv NetworkOrder ByteNetwork SpecByteNetwork SpecByteFlow ByteNetworkFacts ByteFlowFacts PropsNetwork PropsByteNetwork.
Import ListNotations.
Local Open Scope string_scope.
Local Open Scope Z_scope.
Local Open Scope list_scope.

Theorem C108_event_arrives : forall before s q i s' p after, let acts := before ++ WSend s' (Publish p) :: after in
  Forall usable acts -> bytes_routings acts <= 2 ^ 53 -> bytes_no_reuse PubSub acts ->
  bytes_holding s (Subscribe q) i before -> pb_topic p = su_topic q -> bytes_connected s' (fst (bytes_run before)) = true ->
  ~ In (WLeave s') after -> bytes_keeps_on s i (Subscribe q) after -> bytes_idle s' (fst (bytes_run acts)) -> bytes_idle s (fst (bytes_run acts)) ->
  exists pid,
    bytes_accepts (before ++ [WSend s' (Publish p)]) s (normalise (Event (mkEvent (PyInt i) (PyInt pid) (pb_args p) (pb_kwargs p) []))) after /\
    (wants "acknowledge" (pb_options p) = true ->
     bytes_accepts (before ++ [WSend s' (Publish p)]) s' (Published (mkPublished (pb_request p) (PyInt pid))) after).
Proof.
  intros before s q i s' p after acts U L R H1 H2 H3 H4 H5 H6 H7.
  destruct (bytes_event_arrives everyone before s q i s' p after Logic.I U) as (pid & A & B); auto.
  - apply allowed_bytes. split; [exact U|split; [exact L|split; [exact R|discriminate]]].
  - exists pid. split; [exact A|]. intros W. exact (B W Logic.I).
Qed.
Print Assumptions C108_event_arrives.

Theorem C108_call_answered : forall before s q i s' c after, let acts := before ++ WSend s' (Call c) :: after in
  Forall usable acts -> bytes_routings acts <= 2 ^ 53 -> bytes_no_reuse Rpc acts -> bytes_fresh_sessions acts -> bytes_no_progress acts ->
  bytes_holding s (Register q) i before -> ca_procedure c = rg_procedure q -> bytes_connected s' (fst (bytes_run before)) = true ->
  ~ In (WLeave s') after -> bytes_keeps_on s i (Register q) after -> bytes_idle s' (fst (bytes_run acts)) -> bytes_idle s (fst (bytes_run acts)) ->
  exists iv a1 a2, let X := before ++ WSend s' (Call c) :: a1 in
    after = a1 ++ WDeliver s :: a2 /\
    snd (bytes_step (fst (bytes_run X)) (WDeliver s)) = WDelivered (Ok (Invocation iv)) (Ok (Invocation iv)) /\
    iv_registration iv = PyInt i /\ iv_args iv = norm_args (ca_args c) (ca_kwargs c) /\ iv_kwargs iv = ca_kwargs c /\
    forall rest c1 u c2, let all := acts ++ rest in
      Forall usable all -> bytes_routings all <= 2 ^ 53 -> bytes_no_reuse Rpc all -> bytes_fresh_sessions all -> bytes_no_progress all ->
      a2 ++ rest = c1 ++ WSend s u :: c2 -> replies (pyint_Z (iv_request iv)) u = true ->
      bytes_no_reply s (pyint_Z (iv_request iv)) (X ++ WDeliver s :: c1 ++ c2) ->
      ~ In (WLeave s) rest -> ~ In (WLeave s') rest -> bytes_idle s (fst (bytes_run all)) -> bytes_idle s' (fst (bytes_run all)) ->
      bytes_accepts (X ++ WDeliver s :: c1 ++ [WSend s u]) s' (normalise (reply_to c u)) c2.
Proof.
  intros before s q i s' c after acts U L R F P H1 H2 H3 H4 H5 H6 H7.
  destruct (bytes_call_answered everyone before s q i s' c after Logic.I Logic.I U) as (iv & a1 & a2 & E1 & E2 & E3 & E4 & E5 & K); auto.
  - apply allowed_bytes. split; [exact U|split; [exact L|split; [exact R|auto]]].
  - exists iv, a1, a2. cbv zeta. repeat (split; [assumption|]). intros rest c1 u c2 U' L' R' F' P'. apply K; [exact U'|].
    apply allowed_bytes. split; [exact U'|split; [exact L'|split; [exact R'|auto]]].
Qed.
Print Assumptions C108_call_answered.

Theorem C108_in_order : forall acts s, Forall usable acts ->
  exists h, bytes_history acts s h /\ ForallOrdPairs (bytes_precedes acts) h.
Proof. exact bytes_in_order. Qed.
Print Assumptions C108_in_order.

Theorem C108_publications_increase : forall acts s, Forall usable acts -> bytes_routings acts <= 2 ^ 53 ->
  ForallOrdPairs Z.lt (publications (rev (bytes_inbox s (snd (bytes_run acts))))).
Proof. intros acts s U L. rewrite inbox_bytes by exact U. apply events_sorted. rewrite routings_bytes. exact L. Qed.
Print Assumptions C108_publications_increase.
Theorem C108_invocations_increase : forall acts s, Forall usable acts -> bytes_routings acts <= 2 ^ 53 ->
  (forall c m, In (WSend c (Call m)) acts -> wants "progress" (ca_options m) = false) ->
  ForallOrdPairs Z.lt (invocation_ids (rev (bytes_inbox s (snd (bytes_run acts))))).
Proof. intros acts s U L H. rewrite inbox_bytes by exact U. apply invocations_sorted; [rewrite routings_bytes; exact L|apply chunks_bytes, H]. Qed.
Print Assumptions C108_invocations_increase.

(** In [y_acts] the JSON client 10 holds a subscription when the MessagePack client 20 publishes, and the CBOR client 30 holds
    a registration when 10 calls and answers later. *)
Ltac in_wacts H := repeat (destruct H as [H|H]; [try discriminate; try (injection H; intros; subst; reflexivity)|]); destruct H.
Definition Y_SUB := mkSubscribe (PyInt 1) "a" [].
Definition Y_REG := mkRegister (PyInt 1) "p" [].
Example C108_case_event : y_acts = firstn 7 y_acts ++ WSend 20 (Publish Y_PUB) :: skipn 8 y_acts /\
  bytes_holding 10 (Subscribe Y_SUB) 1 (firstn 7 y_acts) /\ bytes_connected 20 (fst (bytes_run (firstn 7 y_acts))) = true /\
  ~ In (WLeave 20) (skipn 8 y_acts) /\ bytes_keeps_on 10 1 (Subscribe Y_SUB) (skipn 8 y_acts) /\
  bytes_idle 10 (fst (bytes_run y_acts)) /\ bytes_idle 20 (fst (bytes_run y_acts)).
Proof.
  split; [reflexivity|]. split.
  { exists (firstn 3 y_acts), (firstn 3 (skipn 4 y_acts)), (Subscribed (mkSubscribed (PyInt 1) (PyInt 1))). split; [reflexivity|].
    split; [vm_compute; reflexivity|]. split; [split; [intros H; in_wacts H|intros v H; in_wacts H]|]. split; [|reflexivity].
    exists [WRoute 10], [WSend 30 (Register Y_REG)]. eexists. split; [reflexivity|]. vm_compute. reflexivity. }
  split; [vm_compute; reflexivity|]. split; [intros H; in_wacts H|]. split; [split; [intros H; in_wacts H|intros v H; in_wacts H]|].
  split; apply idle_now_ok; vm_compute; reflexivity.
Qed.
Example C108_case_call : let acts := firstn 16 y_acts in let rest := skipn 16 y_acts in
  acts = firstn 13 y_acts ++ WSend 10 (Call Y_CALL) :: [WRoute 10; WDeliver 30] /\
  bytes_holding 30 (Register Y_REG) 1 (firstn 13 y_acts) /\ bytes_connected 10 (fst (bytes_run (firstn 13 y_acts))) = true /\
  bytes_keeps_on 30 1 (Register Y_REG) [WRoute 10; WDeliver 30] /\
  bytes_idle 10 (fst (bytes_run acts)) /\ bytes_idle 30 (fst (bytes_run acts)) /\
  acts ++ rest = y_acts /\ rest = WSend 30 (Yield Y_YIELD) :: [WRoute 30; WDeliver 10] /\
  bytes_idle 10 (fst (bytes_run y_acts)) /\ bytes_idle 30 (fst (bytes_run y_acts)) /\ replies 2 (Yield Y_YIELD) = true.
Proof.
  cbv zeta. split; [reflexivity|]. split.
  { exists (firstn 6 y_acts), (firstn 6 (skipn 7 y_acts)), (Registered (mkRegistered (PyInt 1) (PyInt 1))). split; [reflexivity|].
    split; [vm_compute; reflexivity|]. split; [split; [intros H; in_wacts H|intros v H; in_wacts H]|]. split; [|reflexivity].
    exists (firstn 5 (skipn 7 y_acts)), []. eexists. split; [reflexivity|]. vm_compute. reflexivity. }
  split; [vm_compute; reflexivity|]. split; [split; [intros H; in_wacts H|intros v H; in_wacts H]|].
  split; [apply idle_now_ok; vm_compute; reflexivity|]. split; [apply idle_now_ok; vm_compute; reflexivity|]. split; [reflexivity|]. split; [reflexivity|].
  split; [apply idle_now_ok; vm_compute; reflexivity|]. split; [apply idle_now_ok; vm_compute; reflexivity|reflexivity].
Qed.
Example C108_case_order : rev (bytes_inbox 10 (snd (bytes_run y_acts))) =
  [Subscribed (mkSubscribed (PyInt 1) (PyInt 1)); Event (mkEvent (PyInt 1) (PyInt 2) (Some []) (Some KW) []); Result (mkResult (PyInt 1) (Some [VDict KW]) None [] no_bin)].
Proof. vm_compute. reflexivity. Qed.
