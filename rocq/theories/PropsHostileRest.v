(** * PropsHostileRest: property theorems C115 (hostile clients cannot keep the network busy: once everybody is silent it comes
    to rest, and then everything is answered) and C116 (events and invocations come only while the client holds what they
    are about, whatever bytes others send). *)
From Coq Require Import String Ascii List ZArith Bool Lia.
From Verif Require Import PyBase Messages Serializer Codecs MsgPack Cbor Joiner Session Broker Dealer SpecDealer Network SpecNetwork.
From Verif Require Import ByteNetwork SpecByteNetwork PropsNetwork PropsByteNetwork PropsByteFlow PropsLocal HostileNetwork SpecHostile HostileLive PropsHostile.
From Verif Require Import SpecHostileRest HostileRest SpecHold SpecHostileHold HostileHold.
Import ListNotations.
Local Open Scope string_scope.
Local Open Scope Z_scope.
Local Open Scope list_scope.

(** C115: an item on a link, whatever its bytes, causes at most two messages per connected client; so while nobody sends, the
    router and the links can take only so many steps, in whatever order, and nobody is disconnected by them ... *)
Theorem C115_bounded : forall acts more, h_busy acts more -> let n := fst (hrun acts) in
  (length more <= h_to_router n * (1 + 2 * length (bn_clients n)) + h_to_clients n)%nat /\
  forall s, bytes_connected s (fst (hrun (acts ++ more))) = bytes_connected s n.
Proof.
  intros acts more B n. destruct (h_busy_bounded more acts B) as [L C]. split; [|exact C]. fold n in L. unfold hload in L at 2. lia.
Qed.
Print Assumptions C115_bounded.
(** ... whichever order they take them in, they can be continued until nothing is left ... *)
Theorem C115_comes_to_rest : forall acts, exists more, h_busy acts more /\ h_at_rest (fst (hrun (acts ++ more))).
Proof. exact h_comes_to_rest. Qed.
Print Assumptions C115_comes_to_rest.
Theorem C115_rest_is_idle : forall n s, h_at_rest n -> bytes_connected s n = true -> bytes_idle s n.
Proof. exact h_rest_idle. Qed.
Print Assumptions C115_rest_is_idle.
(** ... and then the clients of this library have been answered. *)
Theorem C115_pubsub_answered : forall before s m after more, let acts := before ++ HAct (WSend s m) :: after in
  h_busy acts more -> h_at_rest (fst (hrun (acts ++ more))) ->
  honest s acts -> h_routings (acts ++ more) <= 2 ^ 53 -> h_disciplined PubSub s acts ->
  bytes_connected s (fst (hrun before)) = true -> ~ In (HAct (WLeave s)) after ->
  match m with Subscribe _ => True | Publish p => wants "acknowledge" (pb_options p) = true | _ => False end ->
  h_got_answer s m (snd (hrun (acts ++ more))).
Proof.
  intros before s m after more acts B Q H L D C Hl Hm. destruct (h_at_rest_answered before s m after more B Q C Hl) as [Hi Hl'].
  pose proof (C114_pubsub_answered before s m (after ++ more)) as T. cbv zeta in T.
  replace (before ++ HAct (WSend s m) :: after ++ more) with (acts ++ more) in T by (unfold acts; rewrite <- app_assoc; reflexivity).
  apply T; try assumption; [apply quiet_honest|apply quiet_disciplined]; try assumption; intros a I0; exact (h_busy_quiet _ _ _ B I0).
Qed.
Print Assumptions C115_pubsub_answered.
Theorem C115_register_answered : forall before s q after more, let acts := before ++ HAct (WSend s (Register q)) :: after in
  h_busy acts more -> h_at_rest (fst (hrun (acts ++ more))) ->
  honest s acts -> h_routings (acts ++ more) <= 2 ^ 53 -> h_disciplined Rpc s acts ->
  bytes_connected s (fst (hrun before)) = true -> ~ In (HAct (WLeave s)) after ->
  h_got_answer s (Register q) (snd (hrun (acts ++ more))).
Proof.
  intros before s q after more acts B Q H L D C Hl. destruct (h_at_rest_answered before s (Register q) after more B Q C Hl) as [Hi Hl'].
  pose proof (C114_register_answered before s q (after ++ more)) as T. cbv zeta in T.
  replace (before ++ HAct (WSend s (Register q)) :: after ++ more) with (acts ++ more) in T by (unfold acts; rewrite <- app_assoc; reflexivity).
  apply T; try assumption; [apply quiet_honest|apply quiet_disciplined]; try assumption; intros a I0; exact (h_busy_quiet _ _ _ B I0).
Qed.
Print Assumptions C115_register_answered.

(** C116. *)
Theorem C116_only_while_held : forall hf acts s x i,
  honest s acts -> h_routings acts <= 2 ^ 53 -> h_disciplined hf s acts ->
  h_next_is acts s x -> about hf x = Some i -> h_held hf acts s i.
Proof. exact h_only_while_held. Qed.
Print Assumptions C116_only_while_held.

(** ** Cases

    Session 66 fills its link, client 20 publishes, client 10 asks for a subscription; eight more steps empty the links. *)
Lemma h_busy_check acts more : forallb (fun k => match nth_error more k with
    | Some (HAct (WRoute s)) => match zget s (bn_clients (fst (hrun (acts ++ firstn k more)))) with Some cl => negb (Nat.eqb (length (bc_up cl)) 0) | None => false end
    | Some (HAct (WDeliver s)) => match zget s (bn_clients (fst (hrun (acts ++ firstn k more)))) with Some cl => negb (Nat.eqb (length (bc_down cl)) 0) | None => false end
    | _ => false end) (seq 0 (length more)) = true -> h_busy acts more.
Proof.
  intros H b a c ->. rewrite forallb_forall in H. specialize (H (length b)). rewrite app_length, in_seq in H. cbn [length] in H. specialize (H ltac:(lia)).
  rewrite nth_error_app2, Nat.sub_diag, firstn_app, Nat.sub_diag, firstn_all in H by lia. cbn [nth_error firstn] in H. rewrite app_nil_r in H.
  destruct a as [a|]; [|discriminate]. destruct a; try discriminate; cbn [h_has_work]; destruct (zget s _) as [cl|]; try discriminate; exists cl; (split; [reflexivity|]); intros X; rewrite X in H; discriminate.
Qed.
Lemma h_at_rest_check n : forallb (fun e => Nat.eqb (length (bc_up (snd e))) 0 && Nat.eqb (length (bc_down (snd e))) 0) (bn_clients n) = true -> h_at_rest n.
Proof.
  intros H a W. rewrite forallb_forall in H.
  assert (K : forall s cl, zget s (bn_clients n) = Some cl -> bc_up cl = [] /\ bc_down cl = []).
  { intros s cl G. assert (I0 : exists k, In (k, cl) (bn_clients n)).
    { unfold zget in G. clear - G. induction (bn_clients n) as [|[k v] cs IH]; [discriminate|]. cbn [dget] in G. destruct (s =? k); [injection G as ->; exists k; left; reflexivity|]. destruct (IH G) as [k' I0]. exists k'. right. exact I0. }
    destruct I0 as [k I0]. specialize (H _ I0). cbn [snd] in H. apply andb_prop in H. destruct H as [H1 H2]. apply Nat.eqb_eq in H1, H2. destruct (bc_up cl), (bc_down cl); try discriminate. auto. }
  destruct a as [[|s|s m|s|s]|s b]; cbn in W; try contradiction; destruct W as (cl & G & W); destruct (K s cl G); contradiction.
Qed.
Definition w_before : list haction := [HAct (y_join 10 python_json); HAct (y_join 20 msgpack); HAct (y_join 66 msgpack)].
Definition w_after : list haction :=
  [HPut 66 ["193"%char]; z_put (Publish Z_BIN); z_put (Publish Z_BIN); HAct (WSend 20 (Publish Y_PUB)); HAct (WRoute 66); HAct (WRoute 10)].
Definition w_rest : list haction :=
  [HAct (WRoute 66); HAct (WRoute 66); HAct (WDeliver 10); HAct (WRoute 20); HAct (WDeliver 66); HAct (WDeliver 20); HAct (WDeliver 66); HAct (WDeliver 10)].
Example C115_case : let acts := w_before ++ HAct (WSend 10 (Subscribe Y_SUB)) :: w_after in
  h_busy acts w_rest /\ h_at_rest (fst (hrun (acts ++ w_rest))) /\ honest 10 acts /\ h_routings (acts ++ w_rest) <= 2 ^ 53 /\ h_disciplined PubSub 10 acts /\
  bytes_connected 10 (fst (hrun w_before)) = true /\ ~ In (HAct (WLeave 10)) w_after /\
  h_to_router (fst (hrun acts)) = 3%nat /\ h_to_clients (fst (hrun acts)) = 1%nat /\
  h_shown (hrun (acts ++ w_rest)) =
    [(10, Ok (Subscribed (mkSubscribed (PyInt 1) (PyInt 1))), true);
     (66, Ok (Published (mkPublished (PyInt 1) (PyInt 2))), false);
     (20, Ok (Published (mkPublished (PyInt 1) (PyInt 4))), true);
     (66, Ok (Published (mkPublished (PyInt 1) (PyInt 3))), false);
     (10, Ok (Event (mkEvent (PyInt 1) (PyInt 4) (Some []) (Some KW) [])), true)].
Proof.
  cbv zeta. split; [apply h_busy_check; vm_compute; reflexivity|]. split; [apply h_at_rest_check; vm_compute; reflexivity|].
  split; [unfold honest, w_before, w_after; cbn [app]; honest_now|]. split; [vm_compute; discriminate|].
  split; [apply h_disciplined_ok; [reflexivity|discriminate]|]. split; [vm_compute; reflexivity|]. split; [intros H; in_hacts H|].
  split; [vm_compute; reflexivity|]. split; [vm_compute; reflexivity|]. vm_compute. reflexivity.
Qed.
Example C116_case : let acts := z_before ++ removelast z_publish in
  honest 10 acts /\ h_routings acts <= 2 ^ 53 /\ h_disciplined PubSub 10 acts /\
  h_next_is acts 10 (Event (mkEvent (PyInt 1) (PyInt 4) (Some []) (Some KW) [])) /\
  about PubSub (Event (mkEvent (PyInt 1) (PyInt 4) (Some []) (Some KW) [])) = Some 1.
Proof.
  cbv zeta. split; [unfold honest, z_before, z_publish; cbn [app removelast]; honest_now|]. split; [vm_compute; discriminate|].
  split; [apply h_disciplined_ok; [reflexivity|discriminate]|]. split; [|reflexivity]. eexists. vm_compute. reflexivity.
Qed.
Example C116_case_rpc : let acts := z_before ++ z_publish ++ firstn 2 z_call in let iv := Invocation (mkInvocation (PyInt 2) (PyInt 1) (Some [VStr "x"]) None [] no_bin) in
  honest 30 acts /\ h_routings acts <= 2 ^ 53 /\ h_disciplined Rpc 30 acts /\ h_next_is acts 30 iv /\ about Rpc iv = Some 1.
Proof.
  cbv zeta. split; [unfold honest, z_before, z_publish, z_call; cbn [app firstn]; honest_now|]. split; [vm_compute; discriminate|].
  split; [apply h_disciplined_ok; [reflexivity|]; intros _; split; [vm_compute; repeat constructor|intros m H; in_hacts H]|]. split; [|reflexivity]. eexists. vm_compute. reflexivity.
Qed.
