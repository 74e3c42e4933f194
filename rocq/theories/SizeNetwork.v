(** * SizeNetwork: how long the messages of the router are. *)
From Coq Require Import String Ascii List ZArith Bool Lia.
From Verif Require Import PyBase Encoding Messages IdGen Parse Serializer Codecs Session Joiner Broker Dealer Network ByteNetwork HostileNetwork.
From Verif Require Import MsgPack Cbor DictFacts SpecSchema RoundTripFacts SpecCodec SpecFormat FormatFacts SpecWeight WeightFacts SizeFacts BrokerFacts ByteNetworkFacts HostileFacts.
Import ListNotations.
Local Open Scope string_scope.
Local Open Scope Z_scope.
Local Open Scope list_scope.

Definition heft (m : message) : Z := weight (VList (marshal m)).
Lemma wl_app a b : wl (a ++ b) = wl a + wl b.
Proof. unfold wl. induction a as [|x a IH]; cbn [app fold_right]; lia. Qed.
Lemma wl_cons x l : wl (x :: l) = weight x + wl l. Proof. reflexivity. Qed.
Lemma wl_nil : wl [] = 0. Proof. reflexivity. Qed.
Lemma wl_nonneg l : 0 <= wl l.
Proof. induction l as [|x l IH]; [cbn; lia|]. rewrite wl_cons. pose proof (weight_pos x). lia. Qed.
Lemma wd_nonneg d : 0 <= wd d.
Proof. pose proof (weight_pos (VDict d)) as H. rewrite weight_dict in H. lia. Qed.
Lemma weight_id z : id_ok z -> weight (VInt z) <= 7.
Proof.
  intros [A B]. cbn [weight]. rewrite Z.abs_eq by lia. assert (L : Z.log2 z <= 53) by (change 53 with (Z.log2 (2 ^ 53)); apply Z.log2_le_mono, B).
  apply (Z.div_le_mono _ _ 8) in L; [|lia]. change (53 / 8) with 6 in L. lia.
Qed.
Lemma weight_pyint p : 1 <= weight (pyint_val p). Proof. apply weight_pos. Qed.
Lemma sget_weight k d v : sget k d = Some v -> 1 + weight (VStr k) + weight v <= weight (VDict d).
Proof.
  rewrite weight_dict. induction d as [|[k' x] d IH]; [discriminate|]. cbn [sget]. change (wd ((k', x) :: d)) with (weight k' + weight x + wd d). pose proof (weight_pos k'). pose proof (weight_pos x). pose proof (wd_nonneg d).
  assert (T : sget k d = Some v -> 1 + weight (VStr k) + weight v <= 1 + (weight k' + weight x + wd d)) by (intros E; specialize (IH E); lia).
  destruct k'; try exact T. destruct (String.eqb_spec k s) as [->|N]; [|exact T]. intros [= ->]. lia.
Qed.
Lemma default_weight k b d : weight (sget_default k (VBool b) d) <= weight (VDict d).
Proof. pose proof (weight_pos (VDict d)). unfold sget_default. destruct (sget k d) as [v|] eqn:E; [|change (weight (VBool b)) with 1; lia]. apply sget_weight in E. pose proof (weight_pos (VStr k)). lia. Qed.
Lemma invocation_details_weight o b (p q : bool) :
  weight (VDict (with_serializer ((if p then [(VStr OPTION_RECEIVE_PROGRESS, VBool true)] else []) ++ (if q then [(VStr OPTION_PROGRESS, VBool true)] else [])) (mkBin (bp_serializer b) (bp_payload b) false)))
  <= weight (VDict (with_serializer o b)) + 28.
Proof.
  unfold with_serializer. cbn [bp_serializer]. destruct (bp_serializer b) as [s|].
  - assert (H := sget_weight _ _ _ (sget_sset_same X_PAYLOAD_SERIALIZER (VInt s) o)). revert H. generalize (VInt s). intros v H.
    assert (E : forall d : dict, sset X_PAYLOAD_SERIALIZER v d = d ++ [(VStr X_PAYLOAD_SERIALIZER, v)] -> weight (VDict (sset X_PAYLOAD_SERIALIZER v d)) = weight (VDict d) + 21 + weight v).
    { intros d ->. rewrite !weight_dict, wd_app. unfold wd at 2. cbn [fold_right fst snd]. change (weight (VStr X_PAYLOAD_SERIALIZER)) with 21. lia. }
    rewrite E by (destruct p, q; reflexivity). change (weight (VStr X_PAYLOAD_SERIALIZER)) with 21 in H.
    destruct p, q; match goal with |- weight ?v + 21 + _ <= _ => let w := eval vm_compute in (weight v) in change (weight v) with w end; lia.
  - pose proof (weight_pos (VDict o)). destruct p, q; match goal with |- weight ?v <= _ => let w := eval vm_compute in (weight v) in change (weight v) with w end; lia.
Qed.
Ltac weigh := unfold heft; cbn [rt_message marshal];
  try unfold marshal_subscribe; try unfold marshal_unsubscribe; try unfold marshal_subscribed; try unfold marshal_unsubscribed; try unfold marshal_publish; try unfold marshal_published; try unfold marshal_event;
  try unfold marshal_register; try unfold marshal_unregister; try unfold marshal_registered; try unfold marshal_unregistered; try unfold marshal_call; try unfold marshal_invocation; try unfold marshal_yield;
  try unfold marshal_result; try unfold marshal_error; rewrite !weight_list; rewrite ?wl_app, ?wl_cons, ?wl_nil;
  cbn [su_request su_options su_topic sd_request sd_subscription us_request us_subscription ud_request pb_request pb_options pb_topic pb_args pb_kwargs pd_request pd_publication
    ev_subscription ev_publication ev_details ev_args ev_kwargs rg_request rg_options rg_procedure rd_request rd_registration ur_request ur_registration un_request
    er_type er_request er_details er_uri er_args er_kwargs iv_request iv_registration iv_args iv_kwargs re_request re_args re_kwargs];
  try change (wl (args_kwargs_tail None None)) with 0;
  repeat match goal with
         | |- context [args_kwargs_tail ?a ?k] => let t := fresh "t" in pose proof (wl_nonneg (args_kwargs_tail a k)); set (t := wl (args_kwargs_tail a k)) in *; clearbody t
         end;
  try change (pyint_val (PyInt T_CALL)) with (VInt T_CALL); try change (pyint_val (PyInt T_REGISTER)) with (VInt T_REGISTER);
  repeat match goal with
         | |- context [weight (VInt ?c)] => match c with T_SUBSCRIBE => idtac | T_SUBSCRIBED => idtac | T_UNSUBSCRIBE => idtac | T_UNSUBSCRIBED => idtac | T_PUBLISH => idtac | T_PUBLISHED => idtac | T_EVENT => idtac
                                            | T_REGISTER => idtac | T_REGISTERED => idtac | T_UNREGISTER => idtac | T_UNREGISTERED => idtac | T_CALL => idtac | T_INVOCATION => idtac | T_YIELD => idtac | T_RESULT => idtac | T_ERROR => idtac end;
                                            change (weight (VInt c)) with 1
         end;
  repeat match goal with
         | |- context [weight (pyint_val (PyInt ?z))] => change (weight (pyint_val (PyInt z))) with (weight (VInt z))
         end;
  repeat match goal with
         | |- context [weight (pyint_val ?p)] => let t := fresh "i" in pose proof (weight_pyint p); set (t := weight (pyint_val p)) in *; clearbody t
         end;
  repeat match goal with
         | |- context [weight (VDict [])] => change (weight (VDict [])) with 1
         end;
  repeat match goal with
         | |- context [weight (VDict ?p)] => let t := fresh "d" in pose proof (weight_pos (VDict p)); set (t := weight (VDict p)) in *; clearbody t
         | |- context [weight (VStr ?p)] => lazymatch p with String _ _ => let w := eval vm_compute in (weight (VStr p)) in change (weight (VStr p)) with w | _ => let t := fresh "s" in pose proof (weight_pos (VStr p)); set (t := weight (VStr p)) in *; clearbody t end
         end.

Definition request_weight (i : pending_invocation) : Z := weight (pyint_val (pi_request i)).
Definition pending_ok (P : Z) (d : dealer) : Prop := Forall (fun e => request_weight (snd e) <= P) (d_pending d).
Definition nobody (s : Z) : Prop := False.
Definition small_posts (P w : Z) (posts : list routed) : Prop := Forall (fun p => heft (rt_message p) <= w + P + 40) posts.

Lemma subscribe_size b s m P : 0 <= P -> broker_ok b -> forall p, snd (b_subscribe b s m) = Ok p -> heft (rt_message p) <= heft (Subscribe m) + P + 40.
Proof.
  intros P0 [G F] p. unfold b_subscribe. destruct (zget _ _); [|discriminate]. destruct (tget _ _) as [n|].
  - destruct (nth_error _ _) as [sub|] eqn:E; [|discriminate]. intros [= <-]. pose proof (weight_id _ (Forall_nth _ _ _ _ F E)). weigh. lia.
  - destruct (next_ok _ G) as [_ I]. destruct (next_id (b_idgen b)) as [g id]. cbn [snd] in *. intros [= <-]. pose proof (weight_id _ I). weigh. lia.
Qed.
Lemma unsubscribe_size b s m P : 0 <= P -> forall p, snd (b_unsubscribe b s m) = Ok p -> heft (rt_message p) <= heft (Unsubscribe m) + P + 40.
Proof.
  intros P0 p. unfold b_unsubscribe. destruct (zget _ _); [|discriminate]. destruct (zget _ _); [|discriminate]. destruct (nth_error _ _) as [sub|] eqn:E; [|discriminate]. destruct (negb _); [discriminate|].
  destruct (drop_topic_if_empty _ _) as [b' [[]|e]]; [|discriminate]. intros [= <-]. weigh. lia.
Qed.
Lemma publish_size b s m P : 0 <= P -> broker_ok b -> forall p, snd (b_receive_publish b s m) = Ok p ->
  (forall q, pu_ack p = Some q -> heft (rt_message q) <= heft (Publish m) + P + 40) /\ (forall e, pu_event p = Some e -> heft (Event e) <= heft (Publish m) + P + 40).
Proof.
  intros P0 [G F] p. unfold b_receive_publish. destruct (negb _); [discriminate|]. destruct (next_ok _ G) as [_ I]. destruct (next_id (b_idgen b)) as [g id]. cbn [snd] in I. apply weight_id in I.
  set (ack := if truthy _ then _ else _). assert (A : forall q, ack = Some q -> heft (rt_message q) <= heft (Publish m) + P + 40).
  { intros q. unfold ack. destruct (truthy _); [|discriminate]. intros [= <-]. weigh. lia. }
  destruct (tget _ _) as [n|].
  - cbn [set_bidgen b_heap]. destruct (nth_error _ _) as [sub|] eqn:E; [|discriminate]. cbn [snd]. intros [= <-]. cbn [pu_ack pu_event]. split; [exact A|]. intros e [= <-]. pose proof (weight_id _ (Forall_nth _ _ _ _ F E)). weigh. lia.
  - cbn [snd]. intros [= <-]. cbn [pu_ack pu_event]. split; [exact A|discriminate].
Qed.
Lemma call_size d s m P : 0 <= P -> dealer_ok nobody d -> pending_ok P d -> weight (pyint_val (ca_request m)) <= P ->
  pending_ok P (fst (d_call d s m)) /\ forall p, snd (d_call d s m) = Ok p -> heft (rt_message p) <= heft (Call m) + P + 40.
Proof.
  intros P0 (G & F & _ & C) Q R. unfold d_call. destruct (tget _ _) as [n|].
  2:{ split; [exact Q|]. intros p [= <-]. unfold plain_error. weigh. lia. }
  destruct (nth_error (d_heap d) n) as [reg|] eqn:E; [|split; [exact Q|discriminate]]. pose proof (weight_id _ (Forall_nth _ _ _ _ F E)) as Wr. destruct (next_ok _ G) as [_ I]. destruct (next_id (d_idgen d)) as [g id]. cbn [snd] in I.
  set (callee := match reg_registrants reg with [] => 0 | (s, _) :: _ => s end). set (rp := sget_default OPTION_RECEIVE_PROGRESS _ _). set (pr := sget_default OPTION_PROGRESS _ _). cbv zeta.
  set (fresh := (add_call (set_didgen d g) (ca_request m) id s callee pr rp, id)).
  assert (N : pending_ok P (fst fresh) /\ id_ok (snd fresh)).
  { split; [|exact I]. cbn [fst fresh add_call set_dcalls set_dpending d_pending set_didgen]. apply (Forall_dset Z.eqb (fun i => request_weight i <= P)); [exact Q|exact R]. }
  set (chosen := if truthy pr then match zzget (s, pyint_Z (ca_request m)) (d_call_ids d) with Some i => (d, i) | None => fresh end else fresh).
  assert (K : pending_ok P (fst chosen) /\ id_ok (snd chosen)).
  { unfold chosen. destruct (truthy pr); [|exact N]. destruct (zzget _ _) as [i|] eqn:D; [|exact N]. split; [exact Q|]. exact (Forall_dget _ id_ok _ _ _ C D). }
  clearbody chosen. destruct chosen as [d' i]. cbn [fst snd] in *. destruct K as [K1 K2]. split; [exact K1|]. intros p [= <-]. apply weight_id in K2. clear - K2 Wr P0.
  pose proof (invocation_details_weight (ca_opts m) (ca_bin m) (truthy rp) (truthy pr)) as D. unfold heft. cbn [rt_message marshal]. unfold marshal_invocation, marshal_call, iv_details, ca_options. cbn [iv_request iv_registration iv_args iv_kwargs iv_dets iv_bin].
  rewrite !weight_list, !wl_app, !wl_cons, wl_nil. change (weight (VInt T_INVOCATION)) with 1. change (weight (VInt T_CALL)) with 1. cbn [pyint_val].
  pose proof (wl_nonneg (args_kwargs_tail (ca_args m) (ca_kwargs m))). pose proof (weight_pyint (ca_request m)). pose proof (weight_pos (VStr (ca_procedure m))). lia.
Qed.
Lemma yield_size d s m P : pending_ok P d -> pending_ok P (fst (d_yield d s m)) /\ forall p, snd (d_yield d s m) = Ok p -> heft (rt_message p) <= heft (Yield m) + P + 40.
Proof.
  intros Q. unfold d_yield. destruct (zget _ _) as [inv|] eqn:E; [|split; [exact Q|discriminate]]. destruct (negb _); [split; [exact Q|discriminate]|].
  assert (R : request_weight inv <= P) by exact (Forall_dget _ (fun i => request_weight i <= P) _ _ _ Q E). unfold request_weight in R. cbv zeta.
  assert (S1 : forall x, weight x <= weight (VDict (yi_options m)) ->
    heft (Result (mkResult (pi_request inv) (yi_args m) (yi_kwargs m) [(VStr OPTION_PROGRESS, x)] no_payload)) <= heft (Yield m) + P + 40).
  { intros x X. unfold heft. cbn [marshal]. unfold marshal_result, marshal_yield, re_details, with_serializer. cbn [re_request re_args re_kwargs re_dets re_bin no_payload bp_serializer]. rewrite !weight_list, !wl_app, !wl_cons, wl_nil.
    rewrite (weight_dict [(VStr OPTION_PROGRESS, x)]). unfold wd. cbn [fold_right fst snd]. change (weight (VStr OPTION_PROGRESS)) with 9. change (weight (VInt T_RESULT)) with 1. change (weight (VInt T_YIELD)) with 1.
    pose proof (weight_pyint (yi_request m)). lia. }
  assert (S2 : heft (Result (mkResult (pi_request inv) (yi_args m) (yi_kwargs m) [] no_payload)) <= heft (Yield m) + P + 40).
  { unfold heft. cbn [marshal]. unfold marshal_result, marshal_yield, re_details, with_serializer. cbn [re_request re_args re_kwargs re_dets re_bin no_payload bp_serializer]. rewrite !weight_list, !wl_app, !wl_cons, wl_nil.
    change (weight (VDict [])) with 1. change (weight (VInt T_RESULT)) with 1. change (weight (VInt T_YIELD)) with 1. pose proof (weight_pyint (yi_request m)). pose proof (weight_pos (VDict (yi_options m))). lia. }
  destruct (_ && _).
  - split; [exact Q|]. intros p [= <-]. apply S1, default_weight.
  - assert (Q' : pending_ok P (set_dpending d (zdel (pyint_Z (yi_request m)) (d_pending d)))) by (apply (Forall_ddel Z.eqb (fun i => request_weight i <= P)), Q).
    destruct (zzmem _ _); (split; [exact Q'|]); [intros p [= <-]; exact S2|discriminate].
Qed.
Lemma register_size d s m P : 0 <= P -> dealer_ok nobody d -> pending_ok P d ->
  pending_ok P (fst (d_register d s m)) /\ forall p, snd (d_register d s m) = Ok p -> heft (rt_message p) <= heft (Register m) + P + 40.
Proof.
  intros P0 (G & _) Q. unfold d_register. destruct (zget _ _); [|split; [exact Q|discriminate]]. destruct (tget _ _) as [n|].
  - split; [exact Q|]. intros p [= <-]. unfold plain_error. weigh. lia.
  - destruct (next_ok _ G) as [_ I]. destruct (next_id (d_idgen d)) as [g id]. cbn [snd] in *. split; [exact Q|]. intros p [= <-]. pose proof (weight_id _ I). weigh. lia.
Qed.
Lemma unregister_size d s m P : 0 <= P -> pending_ok P d ->
  pending_ok P (fst (d_unregister d s m)) /\ forall p, snd (d_unregister d s m) = Ok p -> heft (rt_message p) <= heft (Unregister m) + P + 40.
Proof.
  intros P0 Q. unfold d_unregister. destruct (zget _ _); [|split; [exact Q|discriminate]]. destruct (zget _ _); [|split; [exact Q|discriminate]]. destruct (nth_error _ _) as [reg|]; [|split; [exact Q|discriminate]].
  destruct (negb _); [split; [exact Q|discriminate]|]. cbv zeta. destruct (reg_registrants _) as [|hd tl]; [destruct (tmem _ _)|]; (split; [exact Q|]); try discriminate; intros p [= <-]; weigh; lia.
Qed.
Lemma error_size d m P : pending_ok P d -> pending_ok P (fst (d_error d m)) /\ forall p, snd (d_error d m) = Ok p -> heft (rt_message p) <= heft (Error m) + P + 40.
Proof.
  intros Q. unfold d_error. destruct (negb _); [split; [exact Q|discriminate]|]. destruct (zget _ _) as [inv|] eqn:E; [|split; [exact Q|discriminate]].
  assert (R : request_weight inv <= P) by exact (Forall_dget _ (fun i => request_weight i <= P) _ _ _ Q E). unfold request_weight in R.
  split; [apply (Forall_ddel Z.eqb (fun i => request_weight i <= P)), Q|]. intros p [= <-]. cbn [rt_message]. revert R. weigh. intros R. lia.
Qed.
Definition asks_at_most (P : Z) (m : message) : Prop := match m with Call c => weight (pyint_val (ca_request c)) <= P | _ => True end.
Lemma route_size b d s m P : 0 <= P -> broker_ok b -> dealer_ok nobody d -> pending_ok P d -> asks_at_most P m ->
  let '(b', d', posts) := route b d s m in pending_ok P d' /\ small_posts P (heft m) posts.
Proof.
  intros P0 B D Q A. unfold small_posts.
  destruct m as [m|m|m|m|m|m|m|m|m|m|m|m|m|m|m|m|m|m|m|m|m|m|m|m]; cbn [route]; try (split; [exact Q|constructor]).
  - cbn [d_receive_message]. destruct (error_size d m P Q) as [X Y]. destruct (d_error d m) as [d' [p|e]]; cbn [fst snd] in *; (split; [exact X|]); [apply Forall_cons; [apply Y; reflexivity|constructor]|constructor].
  - pose proof (publish_size b s m P P0 B) as Y. destruct (b_receive_publish b s m) as [b' [p|e]]; cbn [fst snd] in *; (split; [exact Q|]); [|constructor].
    destruct (Y p eq_refl) as [Y1 Y2]. apply Forall_app. split.
    + destruct (pu_ack p) as [q|]; [apply Forall_cons; [apply Y1; reflexivity|constructor]|constructor].
    + destruct (pu_event p) as [e|]; [|constructor]. specialize (Y2 e eq_refl). induction (pu_recipients p); cbn [map]; constructor; [exact Y2|assumption].
  - cbn [b_receive_message]. pose proof (subscribe_size b s m P P0 B) as Y. destruct (b_subscribe b s m) as [b' [p|e]]; cbn [fst snd] in *; (split; [exact Q|]); [apply Forall_cons; [apply Y; reflexivity|constructor]|constructor].
  - cbn [b_receive_message]. pose proof (unsubscribe_size b s m P P0) as Y. destruct (b_unsubscribe b s m) as [b' [p|e]]; cbn [fst snd] in *; (split; [exact Q|]); [apply Forall_cons; [apply Y; reflexivity|constructor]|constructor].
  - cbn [d_receive_message]. destruct (call_size d s m P P0 D Q A) as [X Y]. destruct (d_call d s m) as [d' [p|e]]; cbn [fst snd] in *; (split; [exact X|]); [apply Forall_cons; [apply Y; reflexivity|constructor]|constructor].
  - cbn [d_receive_message]. destruct (register_size d s m P P0 D Q) as [X Y]. destruct (d_register d s m) as [d' [p|e]]; cbn [fst snd] in *; (split; [exact X|]); [apply Forall_cons; [apply Y; reflexivity|constructor]|constructor].
  - cbn [d_receive_message]. destruct (unregister_size d s m P P0 Q) as [X Y]. destruct (d_unregister d s m) as [d' [p|e]]; cbn [fst snd] in *; (split; [exact X|]); [apply Forall_cons; [apply Y; reflexivity|constructor]|constructor].
  - cbn [d_receive_message]. destruct (yield_size d s m P Q) as [X Y]. destruct (d_yield d s m) as [d' [p|e]]; cbn [fst snd] in *; (split; [exact X|]); [apply Forall_cons; [apply Y; reflexivity|constructor]|constructor].
Qed.

(** ** The network *)
Section Bound.
Context (M : Z).
Definition size_ok (c : codec) (b : bytes) : Prop := count b <= 28 * (2 * M + 40) /\ (c = cbor \/ c = msgpack -> count b <= 9 * (2 * M + 40)).
Definition client_small (cl : bclient) : Prop :=
  is_closed_codec (bc_codec cl) /\ Forall (fun b => count b <= M) (bc_up cl) /\ Forall (size_ok (bc_codec cl)) (bc_down cl).
Definition net_small (n : bnet) : Prop :=
  broker_ok (bn_broker n) /\ dealer_ok nobody (bn_dealer n) /\ pending_ok M (bn_dealer n) /\ Forall (fun e => client_small (snd e)) (bn_clients n).
Definition brief (a : haction) : Prop :=
  match a with
  | HPut _ b => count b <= M
  | HAct (WSend _ m) => forall c b, is_closed_codec c -> serialize c m = Ok b -> count b <= M
  | HAct (WJoin _ c) => is_closed_codec c
  | _ => True
  end.
Lemma encoded_small c ms : is_closed_codec c -> Forall (fun m => heft m <= 2 * M + 40) ms -> Forall (size_ok c) (encoded c ms).
Proof.
  intros C F. induction F as [|m ms H F IH]; [constructor|]. cbn [encoded flat_map]. apply Forall_app. split; [|exact IH]. unfold serialize. destruct (dumps c (VList (marshal m))) as [b|] eqn:E; [|constructor].
  constructor; [|constructor]. unfold heft in H. split; [apply (python_size c _ _ C) in E; lia|]. intros [->| ->]; [apply cbor_size in E|apply msgpack_size in E]; lia.
Qed.
Lemma mail_small posts s : small_posts M M posts -> Forall (fun m => heft m <= 2 * M + 40) (mail posts s).
Proof.
  unfold small_posts, mail. intros F. induction F as [|p posts H F IH]; cbn [filter map]; [constructor|]. destruct (_ =? s); [|exact IH]. cbn [map]. constructor; [lia|exact IH].
Qed.
Lemma bpost_small posts cs : small_posts M M posts -> Forall (fun e => client_small (snd e)) cs -> Forall (fun e => client_small (snd e)) (bpost posts cs).
Proof.
  intros P F. unfold bpost. induction F as [|[s cl] cs H F IH]; cbn [map]; constructor; [|exact IH]. cbn [snd] in *. destruct H as (C & U & D). split; [exact C|]. split; [exact U|]. cbn [bc_down bc_codec].
  apply Forall_app. split; [exact D|]. apply encoded_small; [exact C|]. apply mail_small, P.
Qed.
Lemma asks_heft m : asks_at_most (heft m) m.
Proof.
  destruct m; try exact I. cbn [asks_at_most]. unfold heft. cbn [marshal]. unfold marshal_call. rewrite weight_list, wl_app, !wl_cons, wl_nil. pose proof (wl_nonneg (args_kwargs_tail (ca_args m) (ca_kwargs m))).
  pose proof (weight_pos (VInt T_CALL)). pose proof (weight_pos (VDict (ca_options m))). pose proof (weight_pos (VStr (ca_procedure m))). lia.
Qed.
Lemma d_remove_one_pending s d l : d_pending (fst (d_remove_one s d l)) = d_pending d.
Proof.
  unfold d_remove_one. destruct (nth_error _ _); [|reflexivity]. destruct (tget _ _); [|reflexivity]. destruct (nth_error _ _); [|reflexivity]. cbv zeta. destruct (reg_registrants _); [|reflexivity]. destruct (tmem _ _); reflexivity.
Qed.
Lemma d_remove_all_pending s ls : forall d, d_pending (fst (d_remove_all s d ls)) = d_pending d.
Proof.
  induction ls as [|[i l] ls IH]; intros d; [reflexivity|]. cbn [d_remove_all]. pose proof (d_remove_one_pending s d l) as K. destruct (d_remove_one s d l) as [d' [[]|e]]; cbn [fst] in *; [rewrite IH|]; exact K.
Qed.
Lemma d_remove_session_pending d s : d_pending (fst (d_remove_session d s)) = d_pending d.
Proof.
  unfold d_remove_session. destruct (zget _ _) as [regs|]; [|reflexivity]. pose proof (d_remove_all_pending s regs (set_dsession d (zdel s (d_by_session d)))) as K.
  destruct (d_remove_all _ _ _) as [d' [[]|e]]; cbn [fst] in *; [|exact K]. destruct (zmem _ _); exact K.
Qed.
Lemma d_add_session_pending d s : d_pending (fst (d_add_session d s)) = d_pending d.
Proof. unfold d_add_session. cbv zeta. destruct (zmem _ _); reflexivity. Qed.
Lemma routed_small c b d s br bs : is_closed_codec c -> count bs <= M -> broker_ok b -> dealer_ok nobody d -> pending_ok M d ->
  br = match deserialize c bs with Ok m => route b d s m | Raise _ => (b, d, []) end ->
  let '(b', d', posts) := br in broker_ok b' /\ dealer_ok nobody d' /\ pending_ok M d' /\ small_posts M M posts.
Proof.
  intros C N B D Q ->. destruct (deserialize c bs) as [m|e] eqn:E; [|split; [exact B|split; [exact D|split; [exact Q|constructor]]]].
  assert (T : route b d s m = (b, d, []) \/ filtered_class (class_of m) = false) by (destruct m; auto).
  destruct T as [->|F]; [split; [exact B|split; [exact D|split; [exact Q|constructor]]]|].
  assert (W : heft m <= M). { apply Z.le_trans with (count bs); [|exact N]. apply (message_weight c bs m); [unfold is_closed_codec in C; tauto|exact E|exact F]. }
  pose proof (weight_pos (VList (marshal m))) as P0. fold (heft m) in P0.
  pose proof (route_any nobody b d s m (fun x => x) B D) as K1. assert (A : asks_at_most M m). { pose proof (asks_heft m) as A. destruct m; try exact I. cbn [asks_at_most] in *. lia. }
  pose proof (route_size b d s m M ltac:(lia) B D Q A) as K2. destruct (route b d s m) as [[b' d'] posts]. destruct K1 as (X & Y & _), K2 as (Z1 & Z2). split; [exact X|]. split; [exact Y|]. split; [exact Z1|].
  eapply Forall_impl; [|exact Z2]. cbv beta. intros p. lia.
Qed.
Lemma small_get cs s cl : Forall (fun e => client_small (snd e)) cs -> zget s cs = Some cl -> client_small cl.
Proof. intros F. exact (Forall_dget _ client_small _ _ _ F). Qed.
Lemma step_small n a : brief a -> net_small n -> net_small (fst (hstep n a)).
Proof.
  intros A (B & D & Q & F). destruct n as [cs b d]. cbn [bn_broker bn_dealer bn_clients] in *. destruct a as [[det c|s|s m|s|s]|s bs]; cbn [hstep bytes_step bn_broker bn_dealer bn_clients].
  - pose proof (b_add_session_ok b det B) as Kb. pose proof (d_add_session_ok' nobody d det D) as Kd. pose proof (d_add_session_pending d det) as Kp.
    destruct (b_add_session b det) as [b' [[]|e]], (d_add_session d det) as [d' [[]|e']]; try (split; [exact B|split; [exact D|split; [exact Q|exact F]]]). cbn [fst] in *.
    split; [exact Kb|]. split; [exact Kd|]. split; [unfold pending_ok; cbn [bn_dealer]; rewrite Kp; exact Q|]. cbn [bn_clients]. apply (Forall_dset Z.eqb client_small); [exact F|]. split; [exact A|split; constructor].
  - pose proof (b_remove_session_ok b s B) as Kb. pose proof (d_remove_session_ok' nobody d s D) as Kd. pose proof (d_remove_session_pending d s) as Kp.
    destruct (b_remove_session b s) as [b' [[]|e]], (d_remove_session d s) as [d' [[]|e']]; try (split; [exact B|split; [exact D|split; [exact Q|exact F]]]). cbn [fst] in *.
    split; [exact Kb|]. split; [exact Kd|]. split; [unfold pending_ok; cbn [bn_dealer]; rewrite Kp; exact Q|]. cbn [bn_clients]. apply (Forall_ddel Z.eqb client_small), F.
  - destruct (zget s cs) as [cl|] eqn:G; [|split; [exact B|split; [exact D|split; [exact Q|exact F]]]]. destruct (small_get _ _ _ F G) as (C & U & Dn). unfold send_message.
    destruct (send_track (bc_session cl) m) as [se [[]|e]]; cbn [bind]; (split; [exact B|split; [exact D|split; [exact Q|]]]); cbn [fst bn_clients]; apply (Forall_dset Z.eqb client_small); try exact F;
      (split; [exact C|split; [|exact Dn]]); cbn [bc_up]; try exact U. destruct (serialize (bc_codec cl) m) as [x|] eqn:E; [|exact U]. apply Forall_app. split; [exact U|]. constructor; [|constructor]. exact (A _ _ C E).
  - destruct (zget s cs) as [[c se [|bs up] down]|] eqn:G; try (split; [exact B|split; [exact D|split; [exact Q|exact F]]]). destruct (small_get _ _ _ F G) as (C & U & Dn). cbn [bc_codec bc_up bc_down] in *.
    apply Forall_cons_iff in U as [U1 U2]. pose proof (routed_small c b d s _ bs C U1 B D Q eq_refl) as K. destruct (match deserialize c bs with Ok m => route b d s m | Raise _ => (b, d, []) end) as [[b' d'] posts].
    destruct K as (K1 & K2 & K3 & K4). split; [exact K1|]. split; [exact K2|]. split; [exact K3|]. cbn [fst bn_clients]. apply bpost_small; [exact K4|]. apply (Forall_dset Z.eqb client_small); [exact F|]. split; [exact C|]. split; [exact U2|exact Dn].
  - destruct (zget s cs) as [[c se up [|bs down]]|] eqn:G; try (split; [exact B|split; [exact D|split; [exact Q|exact F]]]). destruct (small_get _ _ _ F G) as (C & U & Dn). cbn [bc_codec bc_up bc_down] in *.
    destruct (receive c se bs) as [se' r]. split; [exact B|]. split; [exact D|]. split; [exact Q|]. cbn [fst bn_clients]. apply (Forall_dset Z.eqb client_small); [exact F|]. split; [exact C|]. split; [exact U|]. apply Forall_cons_iff in Dn. apply Dn.
  - destruct (zget s cs) as [cl|] eqn:G; [|split; [exact B|split; [exact D|split; [exact Q|exact F]]]]. destruct (small_get _ _ _ F G) as (C & U & Dn).
    split; [exact B|]. split; [exact D|]. split; [exact Q|]. cbn [fst bn_clients]. apply (Forall_dset Z.eqb client_small); [exact F|]. split; [exact C|]. split; [|exact Dn]. cbn [bc_up]. apply Forall_app. split; [exact U|]. constructor; [exact A|constructor].
Qed.
Lemma run_small acts : Forall brief acts -> net_small (fst (hrun acts)).
Proof.
  intros A. unfold hrun. assert (G : forall acts nh, Forall brief acts -> net_small (fst nh) -> net_small (fst (fold_left hstep_h acts nh))).
  { clear. induction acts as [|a acts IH]; intros nh A H; [exact H|]. apply Forall_cons_iff in A as [A1 A2]. cbn [fold_left]. apply IH; [exact A2|]. unfold hstep_h. pose proof (step_small _ _ A1 H) as K.
    destruct (hstep (fst nh) a). exact K. }
  apply G; [exact A|]. split; [split; [split; vm_compute; discriminate|constructor]|]. split; [|split; constructor]. split; [split; vm_compute; discriminate|]. repeat constructor.
Qed.
End Bound.

(** ** How many messages *)
Definition once_each (b : broker) : Prop := Forall (fun s => NoDup (map fst (sub_subscribers s))) (b_heap b).
Lemma once_put b l sub : once_each b -> NoDup (map fst (sub_subscribers sub)) -> Forall (fun s => NoDup (map fst (sub_subscribers s))) (put (b_heap b) l sub).
Proof. intros F H. apply Forall_put; assumption. Qed.
Lemma once_drop b sub : once_each b -> once_each (fst (drop_topic_if_empty b sub)).
Proof. intros H. unfold drop_topic_if_empty. destruct (sub_subscribers sub); [|exact H]. destruct (tmem _ _); exact H. Qed.
Lemma once_remove_one s b l : once_each b -> once_each (fst (remove_one s b l)).
Proof.
  intros F. unfold remove_one. destruct (nth_error (b_heap b) l) as [sub|]; [|exact F]. destruct (tget _ _) as [l'|]; [|exact F]. destruct (nth_error (b_heap b) l') as [sub'|] eqn:E; [|exact F].
  apply once_drop. unfold once_each. cbn [b_heap set_bheap]. apply once_put; [exact F|]. pose proof (Forall_nth _ _ _ _ F E) as K. cbv beta in K. destruct (zmem _ _); [|exact K]. cbn [sub_subscribers]. apply (NoDup_ddel Z.eqb), K.
Qed.
Lemma once_remove_all s ls : forall b, once_each b -> once_each (fst (remove_all s b ls)).
Proof.
  induction ls as [|[i l] ls IH]; intros b H; [exact H|]. cbn [remove_all]. assert (K := once_remove_one s b l H). destruct (remove_one s b l) as [b' [[]|e]]; [apply IH, K|exact K].
Qed.
Lemma once_leave b s : once_each b -> once_each (fst (b_remove_session b s)).
Proof.
  intros H. unfold b_remove_session. destruct (zget s (b_by_session b)) as [subs|]; [|exact H]. assert (K := once_remove_all s subs (set_bsession b (zdel s (b_by_session b))) H).
  destruct (remove_all _ _ _) as [b' [[]|e]]; [|exact K]. destruct (zmem _ _); exact K.
Qed.
Lemma once_join b d : once_each b -> once_each (fst (b_add_session b d)).
Proof. intros H. unfold b_add_session. cbv zeta. destruct (zmem _ _); exact H. Qed.
Lemma once_subscribe b s m : once_each b -> once_each (fst (b_subscribe b s m)).
Proof.
  intros F. unfold b_subscribe. destruct (zget _ _); [|exact F]. destruct (tget _ _) as [n|].
  - destruct (nth_error _ _) as [sub|] eqn:E; [|exact F]. cbv zeta. unfold once_each. cbn [fst b_heap set_bsession set_bheap]. apply once_put; [exact F|]. cbn [sub_subscribers]. apply (NoDup_dset _ Zeqb_ok). exact (Forall_nth _ _ _ _ F E).
  - destruct (next_id (b_idgen b)) as [g id]. cbv zeta. unfold once_each. cbn [fst b_heap set_bsession set_btopic set_bidgen set_bheap]. apply Forall_app. split; [exact F|]. constructor; [|constructor]. cbn. constructor; [exact (fun x => x)|constructor].
Qed.
Lemma once_unsubscribe b s m : once_each b -> once_each (fst (b_unsubscribe b s m)).
Proof.
  intros F. unfold b_unsubscribe. destruct (zget _ _); [|exact F]. destruct (zget _ _); [|exact F]. destruct (nth_error _ _) as [sub|] eqn:E; [|exact F]. destruct (negb _); [exact F|]. cbv zeta.
  set (sub' := mkSub _ _ _). assert (K : once_each (fst (drop_topic_if_empty (set_bheap b (put (b_heap b) n sub')) sub'))).
  { apply once_drop. unfold once_each. cbn [b_heap set_bheap]. apply once_put; [exact F|]. cbn [sub' sub_subscribers]. apply (NoDup_ddel Z.eqb). exact (Forall_nth _ _ _ _ F E). }
  destruct (drop_topic_if_empty _ _) as [b' [[]|e]]; exact K.
Qed.
Lemma once_publish b s m : once_each b -> once_each (fst (b_receive_publish b s m)).
Proof.
  intros F. unfold b_receive_publish. destruct (negb _); [exact F|]. destruct (next_id _) as [g id]. cbv zeta. destruct (tget _ _) as [n|]; [|exact F]. destruct (nth_error _ _); exact F.
Qed.
Lemma once_route b d s m : once_each b -> once_each (fst (fst (route b d s m))).
Proof.
  intros F. destruct m as [m|m|m|m|m|m|m|m|m|m|m|m|m|m|m|m|m|m|m|m|m|m|m|m]; cbn [route]; try exact F; try (destruct (d_receive_message d s _) as [d' r]; exact F).
  - pose proof (once_publish b s m F) as K. destruct (b_receive_publish b s m) as [b' r]. exact K.
  - pose proof (once_subscribe b s m F) as K. cbn [b_receive_message]. destruct (b_subscribe b s m) as [b' r]. exact K.
  - pose proof (once_unsubscribe b s m F) as K. cbn [b_receive_message]. destruct (b_unsubscribe b s m) as [b' r]. exact K.
Qed.
Lemma once_step n a : once_each (bn_broker n) -> once_each (bn_broker (fst (hstep n a))).
Proof.
  intros F. destruct n as [cs b d]. cbn [bn_broker] in F. destruct a as [[det c|s|s m|s|s]|s bs]; cbn [hstep bytes_step bn_broker bn_dealer bn_clients].
  - pose proof (once_join b det F) as K. destruct (b_add_session b det) as [b' [[]|e]], (d_add_session d det) as [d' [[]|e']]; try exact F. exact K.
  - pose proof (once_leave b s F) as K. destruct (b_remove_session b s) as [b' [[]|e]], (d_remove_session d s) as [d' [[]|e']]; try exact F. exact K.
  - destruct (zget s cs); [|exact F]. destruct (send_message _ _ _). exact F.
  - destruct (zget s cs) as [[c se [|bs up] down]|]; try exact F. destruct (deserialize c bs) as [m|e]; [|exact F]. pose proof (once_route b d s m F) as K. destruct (route b d s m) as [[b' d'] posts]. exact K.
  - destruct (zget s cs) as [[c se up [|bs down]]|]; try exact F. destruct (receive c se bs). exact F.
  - destruct (zget s cs); exact F.
Qed.
Lemma once_run acts : once_each (bn_broker (fst (hrun acts))).
Proof.
  unfold hrun. assert (G : forall acts nh, once_each (bn_broker (fst nh)) -> once_each (bn_broker (fst (fold_left hstep_h acts nh)))).
  { clear. induction acts as [|a acts IH]; intros nh H; [exact H|]. cbn [fold_left]. apply IH. unfold hstep_h. pose proof (once_step (fst nh) a H) as K. destruct (hstep (fst nh) a). exact K. }
  apply G. constructor.
Qed.
Lemma mail_app a b s : mail (a ++ b) s = mail a s ++ mail b s.
Proof. unfold mail. rewrite filter_app, map_app. reflexivity. Qed.
Lemma mail_one p s : (length (mail [p] s) <= 1)%nat.
Proof. unfold mail. cbn [filter]. destruct (_ =? s); cbn; lia. Qed.
Lemma mail_event e l s : NoDup l -> (length (mail (map (fun c => mkRouted (Event e) c) l) s) <= 1)%nat.
Proof.
  intros N. unfold mail. rewrite map_length. induction N as [|x l H N IH]; cbn [map filter rt_recipient]; [apply Nat.le_0_l|]. destruct (Z.eqb_spec x s) as [->|]; [|exact IH]. cbn [length].
  assert (E : filter (fun p => rt_recipient p =? s) (map (fun c => mkRouted (Event e) c) l) = []).
  { clear - H. induction l as [|y l IH]; [reflexivity|]. cbn [map filter rt_recipient]. destruct (Z.eqb_spec y s) as [->|]; [exfalso; apply H; left; reflexivity|]. apply IH. intros K. apply H. right. exact K. }
  rewrite E. cbn. lia.
Qed.
Lemma one_post (r : res routed) s : (length (mail (match r with Ok rt => [rt] | Raise _ => [] end) s) <= 1)%nat.
Proof. destruct r; [apply mail_one|cbn; lia]. Qed.
Lemma route_mail b d s m s' : once_each b -> (length (mail (snd (route b d s m)) s') <= if Z.eqb s' s then 2 else 1)%nat.
Proof.
  intros F. assert (A : (1 <= if Z.eqb s' s then 2 else 1)%nat) by (destruct (s' =? s); lia).
  assert (T : forall r, (length (mail (match r with Ok rt => [rt] | Raise _ => [] end) s') <= if Z.eqb s' s then 2 else 1)%nat) by (intros r; pose proof (one_post r s'); lia).
  destruct m as [m|m|m|m|m|m|m|m|m|m|m|m|m|m|m|m|m|m|m|m|m|m|m|m]; cbn [route]; try (apply Nat.le_0_l); try (destruct (d_receive_message d s _) as [d' r]; apply T); try (destruct (b_receive_message b s _) as [d' r]; apply T).
  assert (P : forall p, snd (b_receive_publish b s m) = Ok p -> NoDup (pu_recipients p) /\ forall q, pu_ack p = Some q -> rt_recipient q = s).
  { intros p. unfold b_receive_publish. destruct (negb _); [discriminate|]. destruct (next_id _) as [g id]. set (ack := if truthy _ then _ else _). assert (K : forall q, ack = Some q -> rt_recipient q = s).
    { unfold ack. destruct (truthy _); [|discriminate]. intros q [= <-]. reflexivity. }
    destruct (tget _ _) as [n|].
    - cbn [set_bidgen b_heap]. destruct (nth_error _ _) as [sub|] eqn:E; [|discriminate]. cbn [snd]. intros [= <-]. split; [exact (Forall_nth _ _ _ _ F E)|exact K].
    - cbn [snd]. intros [= <-]. split; [constructor|exact K]. }
  destruct (b_receive_publish b s m) as [b' [p|e]]; [|apply Nat.le_0_l]. destruct (P p eq_refl) as [N K]. cbn [snd]. rewrite mail_app, app_length.
  assert (X : (length (mail (match pu_event p with Some ev => map (fun c => mkRouted (Event ev) c) (pu_recipients p) | None => [] end) s') <= 1)%nat) by (destruct (pu_event p); [apply mail_event, N|apply Nat.le_0_l]).
  assert (Y : (length (mail (match pu_ack p with Some rt => [rt] | None => [] end) s') <= if Z.eqb s' s then 1 else 0)%nat).
  { destruct (pu_ack p) as [q|]; [|apply Nat.le_0_l]. specialize (K q eq_refl). unfold mail. cbn [filter]. rewrite K, Z.eqb_sym. destruct (s' =? s); cbn; lia. }
  destruct (s' =? s); lia.
Qed.
Lemma zget_bpost posts cs s : zget s (bpost posts cs) =
  option_map (fun cl => mkBClient (bc_codec cl) (bc_session cl) (bc_up cl) (bc_down cl ++ encoded (bc_codec cl) (mail posts s))) (zget s cs).
Proof.
  induction cs as [|[k cl] cs IH]; [reflexivity|]. unfold zget in *. cbn [bpost map dget]. destruct (Z.eqb_spec s k) as [->|]; [reflexivity|exact IH].
Qed.
Lemma encoded_length c ms : (length (encoded c ms) <= length ms)%nat.
Proof. induction ms as [|m ms IH]; [apply Nat.le_0_l|]. cbn [encoded flat_map]. rewrite app_length. fold (encoded c ms). destruct (serialize c m); cbn [length]; lia. Qed.
Lemma route_count acts s s' cl : zget s' (bn_clients (fst (hrun acts))) = Some cl -> exists cl' new,
  zget s' (bn_clients (fst (hstep (fst (hrun acts)) (HAct (WRoute s))))) = Some cl' /\ bc_down cl' = bc_down cl ++ new /\ (length new <= if Z.eqb s' s then 2 else 1)%nat.
Proof.
  pose proof (once_run acts) as O. destruct (fst (hrun acts)) as [cs b d]. cbn [bn_broker bn_clients] in *. intros G. cbn [hstep bytes_step bn_clients bn_broker bn_dealer].
  assert (N : exists cl' new, zget s' cs = Some cl' /\ bc_down cl' = bc_down cl ++ new /\ (length new <= if Z.eqb s' s then 2 else 1)%nat).
  { exists cl, []. split; [exact G|]. split; [rewrite app_nil_r; reflexivity|]. apply Nat.le_0_l. }
  destruct (zget s cs) as [[c se [|bs up] down]|] eqn:H; try exact N. set (r := match deserialize c bs with Ok m => route b d s m | Raise _ => (b, d, []) end).
  assert (L : (length (mail (snd r) s') <= if Z.eqb s' s then 2 else 1)%nat) by (unfold r; destruct (deserialize c bs); [apply route_mail, O|apply Nat.le_0_l]). clearbody r. destruct r as [[b' d'] posts]. cbn [fst snd bn_clients] in *.
  rewrite zget_bpost, (zget_zset). clear N. destruct (Z.eqb_spec s' s) as [->|Ne].
  - rewrite H in G. injection G as <-. cbn [option_map]. do 2 eexists. split; [reflexivity|]. cbn [bc_down bc_codec]. split; [reflexivity|]. pose proof (encoded_length c (mail posts s)). lia.
  - rewrite G. cbn [option_map]. do 2 eexists. split; [reflexivity|]. cbn [bc_down bc_codec]. split; [reflexivity|]. pose proof (encoded_length (bc_codec cl) (mail posts s')). lia.
Qed.
Lemma length_bound M acts :
  (forall det c, In (HAct (WJoin det c)) acts -> is_closed_codec c) -> (forall s b, In (HPut s b) acts -> count b <= M) ->
  (forall s m c b, In (HAct (WSend s m)) acts -> is_closed_codec c -> serialize c m = Ok b -> count b <= M) ->
  forall s cl b, zget s (bn_clients (fst (hrun acts))) = Some cl -> In b (bc_down cl) ->
  count b <= 28 * (2 * M + 40) /\ (bc_codec cl = cbor \/ bc_codec cl = msgpack -> count b <= 9 * (2 * M + 40)).
Proof.
  intros J P S s cl b G I. assert (A : Forall (brief M) acts).
  { apply Forall_forall. intros [[det c|x|x m|x|x]|x bs] H; cbn [brief]; try exact Logic.I; [exact (J _ _ H)|intros c y C E; exact (S _ _ _ _ H C E)|exact (P _ _ H)]. }
  destruct (run_small M acts A) as (_ & _ & _ & F). destruct (small_get M _ _ _ F G) as (_ & _ & D). rewrite Forall_forall in D. exact (D b I).
Qed.
Lemma number_bound acts s s' cl : zget s' (bn_clients (fst (hrun acts))) = Some cl -> exists cl' new,
  zget s' (bn_clients (fst (hstep (fst (hrun acts)) (HAct (WRoute s))))) = Some cl' /\ bc_down cl' = bc_down cl ++ new /\ Z.of_nat (length new) <= if s' =? s then 2 else 1.
Proof.
  intros G. destruct (route_count acts s s' cl G) as (cl' & new & A & B & C). exists cl', new. split; [exact A|]. split; [exact B|]. destruct (s' =? s); lia.
Qed.
