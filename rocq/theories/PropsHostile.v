(** * PropsHostile: property theorem C114: clients of this library keep their guarantees when other clients put arbitrary
    bytes on their links and use serializers of their own. *)
From Coq Require Import String Ascii List ZArith Bool Lia.
From Verif Require Import PyBase Messages Validate IdGen Serializer Codecs MsgPack Cbor Joiner Session Broker Dealer SpecDealer Network SpecNetwork.
From Verif Require Import SpecSchema SpecCodec NetworkFacts NetworkInv NetworkLive NetworkFlow NetworkDelivery ByteNetwork SpecByteNetwork ByteNetworkFacts PropsNetwork PropsByteNetwork PropsByteFlow PropsLocal.
From Verif Require Import HostileNetwork SpecHostile HostileLive.
Import ListNotations.
Local Open Scope string_scope.
Local Open Scope Z_scope.
Local Open Scope list_scope.

(** What reaches [s] is either refused by the deserializer (a relayed payload it cannot represent) or accepted. *)
Theorem C114_accepted : forall hf acts s d r,
  honest s acts -> h_routings acts <= 2 ^ 53 -> h_disciplined hf s acts ->
  In (HAct (WDeliver s), WDelivered d r) (snd (hrun acts)) ->
  match d with Ok m => message_half m = Some hf -> r = Ok m | Raise e => r = Raise e end.
Proof. exact h_accepted. Qed.
Print Assumptions C114_accepted.

Theorem C114_pubsub_answered : forall before s m after, let acts := before ++ HAct (WSend s m) :: after in
  honest s acts -> h_routings acts <= 2 ^ 53 -> h_disciplined PubSub s acts ->
  bytes_connected s (fst (hrun before)) = true -> ~ In (HAct (WLeave s)) after -> bytes_idle s (fst (hrun acts)) ->
  match m with
  | Subscribe _ => True
  | Publish p => wants "acknowledge" (pb_options p) = true
  | _ => False
  end ->
  h_got_answer s m (snd (hrun acts)).
Proof.
  intros before s m after acts H L D Hc Hl Hi Hm. destruct m; try contradiction.
  - apply (h_answered PubSub before s (Publish m) after RPub (pyint_Z (pb_request m))); auto; [exact Logic.I|discriminate|].
    cbn [up_req asks kind_eqb]. unfold acknowledged, sget_default. unfold wants in Hm. destruct (sget "acknowledge" (pb_options m)); [rewrite Hm; reflexivity|discriminate].
  - apply (h_answered PubSub before s (Subscribe m) after RSub (pyint_Z (su_request m))); auto; first [exact Logic.I|discriminate].
Qed.
Print Assumptions C114_pubsub_answered.
Theorem C114_register_answered : forall before s q after, let acts := before ++ HAct (WSend s (Register q)) :: after in
  honest s acts -> h_routings acts <= 2 ^ 53 -> h_disciplined Rpc s acts ->
  bytes_connected s (fst (hrun before)) = true -> ~ In (HAct (WLeave s)) after -> bytes_idle s (fst (hrun acts)) ->
  h_got_answer s (Register q) (snd (hrun acts)).
Proof.
  intros before s q after acts H L D Hc Hl Hi. apply (h_answered Rpc before s (Register q) after RReg (pyint_Z (rg_request q))); auto; first [exact Logic.I|discriminate].
Qed.
Print Assumptions C114_register_answered.
Theorem C114_end_answered : forall before s q i u x after, let acts := before ++ HAct (WSend s u) :: after in
  match q, u, x with
  | Subscribe _, Unsubscribe v, Unsubscribed y => pyint_Z (us_subscription v) = i /\ y = mkUnsubscribed (us_request v) /\ h_disciplined PubSub s acts
  | Register _, Unregister v, Unregistered y => pyint_Z (ur_registration v) = i /\ y = mkUnregistered (ur_request v) /\ h_disciplined Rpc s acts
  | _, _, _ => False
  end ->
  honest s acts -> h_routings acts <= 2 ^ 53 -> h_holding s q i before -> ~ In (HAct (WLeave s)) after -> bytes_idle s (fst (hrun acts)) ->
  h_accepts (before ++ [HAct (WSend s u)]) s x after.
Proof.
  intros before s q i u x after acts D H L Hh Hl Hi.
  destruct q, u, x; try contradiction; destruct D as (Hu & -> & D).
  - refine (h_end_answered before s (Subscribe m) i (Unsubscribe m0) after H L D Logic.I Hh _ Hl Hi). apply Z.eqb_eq. exact Hu.
  - refine (h_end_answered before s (Register m) i (Unregister m0) after H L D Logic.I Hh _ Hl Hi). apply Z.eqb_eq. exact Hu.
Qed.
Print Assumptions C114_end_answered.

Theorem C114_event_arrives : forall before s q i s' p after, let acts := before ++ HAct (WSend s' (Publish p)) :: after in
  honest s acts -> honest s' acts -> h_routings acts <= 2 ^ 53 -> h_disciplined PubSub s acts ->
  h_holding s (Subscribe q) i before -> pb_topic p = su_topic q -> bytes_connected s' (fst (hrun before)) = true ->
  ~ In (HAct (WLeave s')) after -> h_keeps_on s i (Subscribe q) after -> bytes_idle s' (fst (hrun acts)) -> bytes_idle s (fst (hrun acts)) ->
  exists pid,
    h_accepts (before ++ [HAct (WSend s' (Publish p))]) s (Event (mkEvent (PyInt i) (PyInt pid) (norm_args (pb_args p) (pb_kwargs p)) (pb_kwargs p) [])) after /\
    (h_disciplined PubSub s' acts -> wants "acknowledge" (pb_options p) = true ->
     h_accepts (before ++ [HAct (WSend s' (Publish p))]) s' (Published (mkPublished (pb_request p) (PyInt pid))) after).
Proof. exact h_event_arrives. Qed.
Print Assumptions C114_event_arrives.

Theorem C114_call_answered : forall before s q i s' c after, let acts := before ++ HAct (WSend s' (Call c)) :: after in
  honest s acts -> honest s' acts -> h_routings acts <= 2 ^ 53 -> h_disciplined Rpc s acts -> h_disciplined Rpc s' acts ->
  h_holding s (Register q) i before -> ca_procedure c = rg_procedure q -> bytes_connected s' (fst (hrun before)) = true ->
  ~ In (HAct (WLeave s')) after -> h_keeps_on s i (Register q) after -> bytes_idle s' (fst (hrun acts)) -> bytes_idle s (fst (hrun acts)) ->
  exists iv a1 a2, let X := before ++ HAct (WSend s' (Call c)) :: a1 in
    after = a1 ++ HAct (WDeliver s) :: a2 /\
    snd (hstep (fst (hrun X)) (HAct (WDeliver s))) = WDelivered (Ok (Invocation iv)) (Ok (Invocation iv)) /\
    iv_registration iv = PyInt i /\ iv_args iv = norm_args (ca_args c) (ca_kwargs c) /\ iv_kwargs iv = ca_kwargs c /\
    forall rest c1 u c2, let all := acts ++ rest in
      honest s all -> honest s' all -> h_routings all <= 2 ^ 53 -> h_disciplined Rpc s all -> h_disciplined Rpc s' all ->
      a2 ++ rest = c1 ++ HAct (WSend s u) :: c2 -> replies (pyint_Z (iv_request iv)) u = true ->
      h_only_reply s (pyint_Z (iv_request iv)) (length (X ++ HAct (WDeliver s) :: c1)) all ->
      ~ In (HAct (WLeave s)) rest -> ~ In (HAct (WLeave s')) rest -> bytes_idle s (fst (hrun all)) -> bytes_idle s' (fst (hrun all)) ->
      h_accepts (X ++ HAct (WDeliver s) :: c1 ++ [HAct (WSend s u)]) s' (normalise (reply_to c u)) c2.
Proof. exact h_call_answered. Qed.
Print Assumptions C114_call_answered.

(** ** A schedule with a hostile client

    JSON client 10, MessagePack client 20 and CBOR client 30 as in C95's case.  Session 66 "speaks" MessagePack: it sends
    bytes that are no MessagePack, an empty frame, a message of unknown type, a SUBSCRIBE whose id is a string, a
    publication with a binary argument to the topic 10 is subscribed to (which JSON cannot carry), twice the same
    request id, an UNREGISTER for the registration of 30, a second REGISTER of its procedure, and a YIELD for its
    invocation. *)
Definition packed (m : message) : bytes := match serialize msgpack m with Ok b => b | Raise _ => [] end.
Definition packed_value (v : val) : bytes := match dumps msgpack v with Ok b => b | Raise _ => [] end.
Definition z_put m := HPut 66 (packed m).
Definition Z_BIN := mkPublish (PyInt 1) "a" (Some [VBytes ["x"%char]]) None ACK.
Definition z_before : list haction :=
  [HAct (y_join 10 python_json); HAct (y_join 20 msgpack); HAct (y_join 30 cbor); HAct (y_join 66 msgpack);
   HAct (WSend 10 (Subscribe Y_SUB)); HAct (WRoute 10); HAct (WDeliver 10);
   HAct (WSend 30 (Register Y_REG)); HAct (WRoute 30); HAct (WDeliver 30);
   HPut 66 ["193"%char]; HPut 66 []; HPut 66 (packed_value (VList [VInt 99])); HPut 66 (packed_value (VList [VInt 32; VStr "1"; VDict []; VStr "a"]));
   z_put (Publish Z_BIN); z_put (Publish Z_BIN); z_put (Unregister (mkUnregister (PyInt 1) (PyInt 1))); z_put (Register (mkRegister (PyInt 1) "p" []));
   z_put (Yield Y_YIELD);
   HAct (WRoute 66); HAct (WRoute 66); HAct (WRoute 66); HAct (WRoute 66); HAct (WRoute 66); HAct (WDeliver 66)].
Definition z_publish : list haction := [HAct (WSend 20 (Publish Y_PUB)); HAct (WRoute 66); HAct (WRoute 20); HAct (WRoute 66); HAct (WDeliver 20); HAct (WDeliver 10)].
Definition z_call : list haction := [HAct (WSend 10 (Call Y_CALL)); HAct (WRoute 10); HAct (WDeliver 30); HAct (WRoute 66)].
Definition z_yield : list haction := [z_put (Yield Y_YIELD); HAct (WRoute 66); HAct (WSend 30 (Yield Y_YIELD)); HAct (WRoute 30); HAct (WDeliver 10)].
Definition z_acts := z_before ++ z_publish ++ z_call ++ z_yield.
Definition h_shown (nh : bnet * htrace) : list (Z * res message * bool) :=
  flat_map (fun e => match e with
                     | (HAct (WDeliver s), WDelivered d r) => [(s, d, match r with Ok _ => true | _ => false end)]
                     | _ => [] end) (rev (snd nh)).

(** The rules, checked. *)
Definition strip (a : haction) : list action := match a with HAct a => [erase a] | HPut _ _ => [] end.
Lemma h_disciplined_ok hf s acts : reused_by hf s (flat_map strip acts) = false ->
  (hf = Rpc -> (count_occ Z.eq_dec (h_joined acts) s <= 1)%nat /\ forall m, In (HAct (WSend s (Call m))) acts -> wants "receive_progress" (ca_options m) = false) ->
  h_disciplined hf s acts.
Proof.
  intros H H2. split; [|exact H2]. intros before m1 between m2 after k r -> Hk A1 A2. apply reused_by_ok in H. destruct H as [_ H].
  rewrite flat_map_app in H. cbn [flat_map strip erase app] in H. rewrite flat_map_app in H. cbn [flat_map strip erase app] in H.
  specialize (H _ _ _ _ _ k r eq_refl Hk). rewrite !asks_normalise in H. specialize (H A1 A2).
  apply in_flat_map in H. destruct H as (a & Ha & H). destruct a as [[]|]; cbn in H; try contradiction; destruct H as [H|[]]; try discriminate. injection H as <-. exact Ha.
Qed.
Definition reply_now (s j : Z) (acts : list haction) (k : nat) : bool :=
  let n := fst (hrun (firstn k acts)) in
  match nth_error acts k with
  | Some (HPut x b) =>
      match zget x (bn_clients n) with
      | Some cl => match deserialize (bc_codec cl) b with Ok u => may_end s j x u | _ => false end
      | None => false
      end
  | Some (HAct (WSend x m)) =>
      match zget x (bn_clients n) with
      | Some cl => match snd (send_message (bc_codec cl) (bc_session cl) m) with
                   | Ok b => match deserialize (bc_codec cl) b with Ok u => may_end s j x u | _ => false end
                   | _ => false
                   end
      | None => false
      end
  | _ => false
  end.
Lemma h_only_reply_ok s j k acts : forallb (fun k' => Nat.eqb k' k || negb (reply_now s j acts k')) (seq 0 (length acts)) = true -> h_only_reply s j k acts.
Proof.
  intros H k' x u (cl & b & G & D & E) Hk. rewrite forallb_forall in H. assert (L : (k' < length acts)%nat) by (apply nth_error_Some; destruct E as [E|(m & E & _)]; rewrite E; discriminate).
  specialize (H k' ltac:(apply in_seq; lia)). apply Nat.eqb_neq in Hk. rewrite Hk in H. cbn [orb] in H. apply negb_true_iff in H. unfold reply_now in H.
  destruct E as [E|(m & E & Sm)]; rewrite E in H; rewrite G in H; [|rewrite Sm in H]; rewrite D in H; exact H.
Qed.
Ltac in_hacts H := repeat (destruct H as [H|H]; [try discriminate; try (injection H; intros; subst; reflexivity)|]); destruct H.
Ltac honest_now :=
  repeat match goal with |- Forall _ [] => apply Forall_nil | |- Forall _ (_ :: _) => apply Forall_cons end; try exact Logic.I; try discriminate;
  first [left; reflexivity|right; left; reflexivity|right; right; left; reflexivity|
    intros _; split; [cbn [wf_message wf_message_with]; eexists; split; [reflexivity|split; [discriminate|vm_compute; discriminate]]|
                      vm_compute; repeat split; repeat constructor; try discriminate; cbn; intuition discriminate]|idtac].

Example C114_case_shown : h_shown (hrun z_acts) =
  [(10, Ok (Subscribed (mkSubscribed (PyInt 1) (PyInt 1))), true);
   (30, Ok (Registered (mkRegistered (PyInt 1) (PyInt 1))), true);
   (66, Ok (Published (mkPublished (PyInt 1) (PyInt 2))), false);
   (20, Ok (Published (mkPublished (PyInt 1) (PyInt 4))), true);
   (10, Ok (Event (mkEvent (PyInt 1) (PyInt 4) (Some []) (Some KW) [])), true);
   (30, Ok (Invocation (mkInvocation (PyInt 2) (PyInt 1) (Some [VStr "x"]) None [] no_bin)), true);
   (10, Ok (Result (mkResult (PyInt 1) (Some [VDict KW]) None [] no_bin)), true)].
Proof. vm_compute. reflexivity. Qed.
Lemma z_honest : honest 10 z_acts /\ honest 20 z_acts /\ honest 30 z_acts.
Proof.
  unfold honest, z_acts, z_before, z_publish, z_call, z_yield. cbn [app]. split; [|split].
  all: honest_now.
Qed.
Lemma z_disciplined : h_disciplined PubSub 10 z_acts /\ h_disciplined PubSub 20 z_acts /\ h_disciplined Rpc 10 z_acts /\ h_disciplined Rpc 30 z_acts.
Proof.
  split; [apply h_disciplined_ok; [reflexivity|discriminate]|]. split; [apply h_disciplined_ok; [reflexivity|discriminate]|].
  split; (apply h_disciplined_ok; [reflexivity|]; intros _; split; [vm_compute; repeat constructor|intros m H; in_hacts H]).
Qed.
Example C114_case_event : let acts := z_before ++ z_publish in
  honest 10 acts /\ honest 20 acts /\ h_routings acts <= 2 ^ 53 /\ h_disciplined PubSub 10 acts /\ h_disciplined PubSub 20 acts /\
  z_publish = HAct (WSend 20 (Publish Y_PUB)) :: tl z_publish /\
  h_holding 10 (Subscribe Y_SUB) 1 z_before /\ bytes_connected 20 (fst (hrun z_before)) = true /\
  ~ In (HAct (WLeave 20)) (tl z_publish) /\ h_keeps_on 10 1 (Subscribe Y_SUB) (tl z_publish) /\
  bytes_idle 10 (fst (hrun acts)) /\ bytes_idle 20 (fst (hrun acts)).
Proof.
  cbv zeta. split; [unfold honest, z_before, z_publish; cbn [app]; honest_now|]. split; [unfold honest, z_before, z_publish; cbn [app]; honest_now|]. split; [vm_compute; discriminate|].
  split; [apply h_disciplined_ok; [reflexivity|discriminate]|]. split; [apply h_disciplined_ok; [reflexivity|discriminate]|]. split; [reflexivity|]. split.
  { exists (firstn 4 z_before), (skipn 5 z_before), (Subscribed (mkSubscribed (PyInt 1) (PyInt 1))). split; [reflexivity|].
    split; [vm_compute; reflexivity|]. split; [split; [intros H; in_hacts H|intros v H; in_hacts H]|]. split; [|reflexivity].
    exists [HAct (WRoute 10)], (skipn 7 z_before). eexists. split; [reflexivity|]. vm_compute. reflexivity. }
  split; [vm_compute; reflexivity|]. split; [intros H; in_hacts H|]. split; [split; [intros H; in_hacts H|intros v H; in_hacts H]|].
  split; apply idle_now_ok; vm_compute; reflexivity.
Qed.
Example C114_case_call : let before := z_before ++ z_publish in let acts := before ++ z_call in
  z_acts = acts ++ z_yield /\ honest 30 acts /\ honest 10 acts /\ h_disciplined Rpc 30 acts /\ h_disciplined Rpc 10 acts /\
  z_call = HAct (WSend 10 (Call Y_CALL)) :: [HAct (WRoute 10); HAct (WDeliver 30); HAct (WRoute 66)] /\
  h_holding 30 (Register Y_REG) 1 before /\ bytes_connected 10 (fst (hrun before)) = true /\
  h_keeps_on 30 1 (Register Y_REG) (tl z_call) /\
  bytes_idle 10 (fst (hrun acts)) /\ bytes_idle 30 (fst (hrun acts)) /\
  h_only_reply 30 2 (length (acts ++ firstn 2 z_yield)) z_acts /\ bytes_idle 10 (fst (hrun z_acts)) /\ bytes_idle 30 (fst (hrun z_acts)).
Proof.
  cbv zeta. split; [reflexivity|]. split; [unfold honest, z_before, z_publish, z_call; cbn [app]; honest_now|]. split; [unfold honest, z_before, z_publish, z_call; cbn [app]; honest_now|].
  split; [apply h_disciplined_ok; [reflexivity|]; intros _; split; [vm_compute; repeat constructor|intros m H; in_hacts H]|].
  split; [apply h_disciplined_ok; [reflexivity|]; intros _; split; [vm_compute; repeat constructor|intros m H; in_hacts H]|]. split; [reflexivity|]. split.
  { exists (firstn 7 z_before), (skipn 8 z_before ++ z_publish), (Registered (mkRegistered (PyInt 1) (PyInt 1))). split; [reflexivity|].
    split; [vm_compute; reflexivity|]. split; [split; [intros H; in_hacts H|intros v H; in_hacts H]|]. split; [|reflexivity].
    exists [HAct (WRoute 30)], (skipn 10 z_before ++ z_publish). eexists. split; [reflexivity|]. vm_compute. reflexivity. }
  split; [vm_compute; reflexivity|]. split; [split; [intros H; in_hacts H|intros v H; in_hacts H]|].
  split; [apply idle_now_ok; vm_compute; reflexivity|]. split; [apply idle_now_ok; vm_compute; reflexivity|].
  split; [apply h_only_reply_ok; vm_compute; reflexivity|]. split; apply idle_now_ok; vm_compute; reflexivity.
Qed.
(** The hostile publication cannot be written in JSON: the router has nothing to put on the link of client 10. *)
Example C114_case_binary : exists e, serialize python_json (Event (mkEvent (PyInt 1) (PyInt 2) (pb_args Z_BIN) None [])) = Raise e.
Proof. eexists. vm_compute. reflexivity. Qed.
