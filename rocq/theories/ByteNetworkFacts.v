(** * ByteNetworkFacts: with portable messages the byte network does what the object network does. *)
From Coq Require Import String Ascii List ZArith Bool Lia.
From Verif Require Import PyBase Encoding Messages IdGen Serializer Codecs Session Joiner Broker Dealer SpecDealer Network SpecNetwork NetworkFacts NetworkOrigin.
From Verif Require Import DictFacts BrokerFacts SpecSchema RoundTripFacts SpecCodec CodecFacts CodecsFacts HandshakeFacts HandshakeCodec ByteNetwork SpecByteNetwork.
Import ListNotations.
Local Open Scope string_scope.
Local Open Scope Z_scope.
Local Open Scope list_scope.

(** ** Normal form *)
Definition good (m : message) : Prop := sendable m /\ normalise m = m.

Lemma tail_norm a k : args_kwargs_tail (norm_args a k) k = args_kwargs_tail a k.
Proof. destruct a, k; reflexivity. Qed.
Lemma norm_norm a k : norm_args (norm_args a k) k = norm_args a k.
Proof. destruct a, k; reflexivity. Qed.
Lemma marshal_normalise m : marshal (normalise m) = marshal m.
Proof.
  destruct m; try reflexivity; cbn [normalise marshal].
  all: unfold marshal_error, marshal_publish, marshal_event, marshal_call, marshal_result, marshal_invocation, marshal_yield.
  all: cbn -[args_kwargs_tail norm_args]; rewrite tail_norm; reflexivity.
Qed.
Lemma normalise_idem m : normalise (normalise m) = normalise m.
Proof. destruct m; try reflexivity; cbn -[norm_args]; rewrite norm_norm; reflexivity. Qed.
Lemma wf_normalise m : wf_message m -> wf_message (normalise m).
Proof. destruct m; exact (fun H => H). Qed.
Lemma sendable_normalise m : sendable m -> good (normalise m).
Proof.
  intros [W P]. split; [split|apply normalise_idem]; [apply wf_normalise, W|]. rewrite marshal_normalise. exact P.
Qed.
Lemma good_wire c m : is_python_codec c -> good m -> exists b, serialize c m = Ok b /\ deserialize c b = Ok m.
Proof.
  intros C [[W P] N]. destruct (carried c m (carries_of c C m W P)) as (b & S & D). exists b. split; [exact S|]. rewrite D, N. reflexivity.
Qed.
Lemma track_normalise s m : send_track s (normalise m) = send_track s m.
Proof. destruct m; reflexivity. Qed.
Lemma asks_normalise m : asks (normalise m) = asks m.
Proof. destruct m; reflexivity. Qed.

(** ** Values inside messages *)
Definition fine (v : val) : Prop := everywhere portable_here v /\ (depth v <= 510)%nat.
Lemma fine_parts l : portable (VList l) -> Forall fine l.
Proof.
  intros [A B]. apply everywhere_list in A. destruct A as [_ A]. induction A as [|x l Hx A IH]; [constructor|].
  change (depth (VList (x :: l))) with (Nat.max (S (depth x)) (depth (VList l))) in B. constructor; [split; [exact Hx|lia]|].
  apply IH. lia.
Qed.
Lemma fine_whole l : (length l <= 10)%nat -> Forall fine l -> portable (VList l).
Proof.
  intros L A. apply portable_intro; [|lia|]; (eapply Forall_impl; [|exact A]); intros x [X Y]; assumption.
Qed.
Lemma fine_int z : - 2 ^ 63 <= z < 2 ^ 64 -> fine (VInt z).
Proof. intros H. split; [apply int_portable, H|apply Nat.le_0_l]. Qed.
Lemma fine_id z : 1 <= z <= 2 ^ 53 -> fine (VInt z).
Proof. intros H. apply fine_int. split; [apply Z.le_trans with 1; [discriminate|apply H]|]. apply Z.le_lt_trans with (2 ^ 53); [apply H|reflexivity]. Qed.
Lemma fine_wf i : wf_id i -> fine (pyint_val i).
Proof. intros (z & -> & H). apply fine_id, H. Qed.
Lemma fine_nil : fine (VDict []).
Proof. split; [|apply Nat.le_0_l]. cbn. repeat split; try constructor. Qed.
Lemma fine_text s : (String.length s < 100)%nat -> is_ascii (encode_str s) = true -> fine (VStr s).
Proof. intros L A. split; [apply key_portable; assumption|apply Nat.le_0_l]. Qed.
Lemma tail_length a k : (length (args_kwargs_tail a k) <= 2)%nat.
Proof. destruct a, k; cbn; lia. Qed.

Lemma fine_entry k d v : fine (VDict d) -> sget k d = Some v -> everywhere portable_here v /\ (depth v <= 509)%nat.
Proof.
  intros [A B] H. apply everywhere_dict in A. destruct A as [_ A].
  induction d as [|[k' x] d IH]; [discriminate|]. inversion A as [|? ? [Hk Hx] A']; subst.
  change (depth (VDict ((k', x) :: d))) with (Nat.max (Nat.max (S (depth k')) (S (depth x))) (depth (VDict d))) in B.
  assert (T : sget k d = Some v -> everywhere portable_here v /\ (depth v <= 509)%nat).
  { intros E. apply IH; [exact A'|lia|exact E]. }
  cbn [fst snd] in *. destruct k'; cbn [sget] in H; try (exact (T H)). destruct (String.eqb k s); [|exact (T H)].
  injection H as <-. split; [exact Hx|lia].
Qed.
Lemma fine_default k d b : fine (VDict d) ->
  everywhere portable_here (sget_default k (VBool b) d) /\ (depth (sget_default k (VBool b) d) <= 509)%nat.
Proof.
  intros F. unfold sget_default. destruct (sget k d) eqn:E; [exact (fine_entry _ _ _ F E)|]. cbn. repeat split. apply Nat.le_0_l.
Qed.

(** ** The router keeps messages sendable *)
Ltac each := cbn [rt_message marshal];
  try unfold marshal_subscribed; try unfold marshal_unsubscribed; try unfold marshal_published; try unfold marshal_registered; try unfold marshal_unregistered;
  repeat match goal with |- Forall _ [] => apply Forall_nil | |- Forall _ (_ :: _) => apply Forall_cons end.
Definition id_ok (z : Z) : Prop := 1 <= z <= 2 ^ 53.
Definition gen_ok (g : idgen) : Prop := 0 <= g <= 2 ^ 53.
Lemma next_ok g : gen_ok g -> gen_ok (fst (next_id g)) /\ id_ok (snd (next_id g)).
Proof.
  unfold next_id, gen_ok, id_ok, ID_MAX. intros H. destruct (Z.eqb_spec g (2 ^ 53)); cbn [fst snd]; lia.
Qed.
Lemma wf_of z : id_ok z -> wf_id (PyInt z).
Proof. intros H. exists z. split; [reflexivity|exact H]. Qed.

Definition broker_ok (b : broker) : Prop := gen_ok (b_idgen b) /\ Forall (fun s => id_ok (sub_id s)) (b_heap b).
(** [Mem]: the callers whose request ids are to be in order. *)
Section Members.
Context (Mem : Z -> Prop).
Definition asked_ok (i : pending_invocation) : Prop := Mem (pi_caller i) -> wf_id (pi_request i).
Definition dealer_ok (d : dealer) : Prop :=
  gen_ok (d_idgen d) /\ Forall (fun r => id_ok (reg_id r)) (d_heap d) /\
  Forall (fun e => asked_ok (snd e)) (d_pending d) /\ Forall (fun e => id_ok (snd e)) (d_call_ids d).

Lemma Forall_put {A} (P : A -> Prop) l n x : Forall P l -> P x -> Forall P (put l n x).
Proof.
  intros F Hx. revert n. induction F as [|y l Hy F IH]; intros [|n]; cbn; constructor; auto.
Qed.
Lemma Forall_nth {A} (P : A -> Prop) l n x : Forall P l -> nth_error l n = Some x -> P x.
Proof. intros F H. rewrite Forall_forall in F. apply F. eapply nth_error_In, H. Qed.

Lemma drop_topic_ok b sub : broker_ok b -> broker_ok (fst (drop_topic_if_empty b sub)).
Proof. intros H. unfold drop_topic_if_empty. destruct (sub_subscribers sub); [|exact H]. destruct (tmem _ _); exact H. Qed.
Lemma remove_one_ok s b l : broker_ok b -> broker_ok (fst (remove_one s b l)).
Proof.
  intros H. unfold remove_one. destruct (nth_error (b_heap b) l) as [sub|]; [|exact H].
  destruct (tget _ _) as [l'|]; [|exact H]. destruct (nth_error (b_heap b) l') as [sub'|] eqn:E; [|exact H].
  apply drop_topic_ok. destruct H as [G F]. split; [exact G|]. cbn [b_heap set_bheap]. apply Forall_put; [exact F|].
  assert (K := Forall_nth _ _ _ _ F E). destruct (zmem _ _); exact K.
Qed.
Lemma remove_all_ok s ls : forall b, broker_ok b -> broker_ok (fst (remove_all s b ls)).
Proof.
  induction ls as [|[i l] ls IH]; intros b H; [exact H|]. cbn [remove_all]. assert (K := remove_one_ok s b l H).
  destruct (remove_one s b l) as [b' [[]|e]]; [apply IH, K|exact K].
Qed.
Lemma b_remove_session_ok b s : broker_ok b -> broker_ok (fst (b_remove_session b s)).
Proof.
  intros H. unfold b_remove_session. destruct (zget s (b_by_session b)) as [subs|]; [|exact H].
  assert (K := remove_all_ok s subs (set_bsession b (zdel s (b_by_session b))) H).
  destruct (remove_all _ _ _) as [b' [[]|e]]; [|exact K]. destruct (zmem _ _); exact K.
Qed.
Lemma b_add_session_ok b d : broker_ok b -> broker_ok (fst (b_add_session b d)).
Proof. intros H. unfold b_add_session. destruct (zmem _ _); exact H. Qed.

Lemma d_remove_one_ok s d l : dealer_ok d -> dealer_ok (fst (d_remove_one s d l)).
Proof.
  intros H. unfold d_remove_one. destruct (nth_error (d_heap d) l) as [reg|]; [|exact H].
  destruct (tget _ _) as [l'|]; [|exact H]. destruct (nth_error (d_heap d) l') as [reg'|] eqn:E; [|exact H].
  assert (K : dealer_ok (set_dheap d (put (d_heap d) l' (if zmem s (reg_registrants reg') then mkReg (reg_id reg') (reg_procedure reg') (zdel s (reg_registrants reg')) else reg')))).
  { destruct H as (G & F & P & Q). split; [exact G|]. split; [|split; [exact P|exact Q]]. cbn [d_heap set_dheap]. apply Forall_put; [exact F|].
    assert (K := Forall_nth _ _ _ _ F E). destruct (zmem _ _); exact K. }
  revert K. generalize (if zmem s (reg_registrants reg') then mkReg (reg_id reg') (reg_procedure reg') (zdel s (reg_registrants reg')) else reg').
  intros r K. destruct (reg_registrants r); [|exact K]. destruct (tmem _ _); exact K.
Qed.
Lemma d_remove_all_ok' s ls : forall d, dealer_ok d -> dealer_ok (fst (d_remove_all s d ls)).
Proof.
  induction ls as [|[i l] ls IH]; intros b H; [exact H|]. cbn [d_remove_all]. assert (K := d_remove_one_ok s b l H).
  destruct (d_remove_one s b l) as [b' [[]|e]]; [apply IH, K|exact K].
Qed.
Lemma d_remove_session_ok' d s : dealer_ok d -> dealer_ok (fst (d_remove_session d s)).
Proof.
  intros H. unfold d_remove_session. destruct (zget s (d_by_session d)) as [regs|]; [|exact H].
  assert (K := d_remove_all_ok' s regs (set_dsession d (zdel s (d_by_session d))) H).
  destruct (d_remove_all _ _ _) as [b' [[]|e]]; [|exact K]. destruct (zmem _ _); exact K.
Qed.
Lemma d_add_session_ok' d det : dealer_ok d -> dealer_ok (fst (d_add_session d det)).
Proof. intros H. unfold d_add_session. destruct (zmem _ _); exact H. Qed.

Lemma Forall_dset {K V} eqb (P : V -> Prop) (k : K) (v : V) d :
  Forall (fun e => P (snd e)) d -> P v -> Forall (fun e => P (snd e)) (dset eqb k v d).
Proof.
  intros F Hv. induction F as [|[k' v'] d H F IH]; cbn [dset]; [repeat constructor; exact Hv|]. destruct (eqb k k'); constructor; auto.
Qed.
Lemma Forall_ddel {K V} eqb (P : V -> Prop) (k : K) (d : list (K * V)) :
  Forall (fun e => P (snd e)) d -> Forall (fun e => P (snd e)) (ddel eqb k d).
Proof. intros F. induction F as [|[k' v'] d H F IH]; cbn [ddel]; [constructor|]. destruct (eqb k k'); [exact F|constructor; auto]. Qed.
Lemma Forall_dget {K V} eqb (P : V -> Prop) (k : K) (v : V) d :
  Forall (fun e => P (snd e)) d -> dget eqb k d = Some v -> P v.
Proof.
  intros F. induction F as [|[k' v'] d H F IH]; cbn [dget]; [discriminate|]. destruct (eqb k k'); [intros [= <-]; exact H|exact IH].
Qed.

Lemma simple_good m : wf_message m -> normalise m = m -> (length (marshal m) <= 10)%nat -> Forall fine (marshal m) -> good m.
Proof. intros W N L F. split; [split; [exact W|apply fine_whole; assumption]|exact N]. Qed.

Lemma subscribe_ok b s m : broker_ok b -> wf_id (su_request m) ->
  broker_ok (fst (b_subscribe b s m)) /\ forall p, snd (b_subscribe b s m) = Ok p -> good (rt_message p).
Proof.
  intros [G F] W. unfold b_subscribe. destruct (zget s (b_by_session b)) as [own|]; [|split; [split; assumption|discriminate]].
  assert (Y : forall i, id_ok i -> good (Subscribed (mkSubscribed (su_request m) (PyInt i)))).
  { intros i Hi. apply simple_good; [split; [exact W|apply wf_of, Hi]|reflexivity|cbn; lia|].
    cbn [marshal]. unfold marshal_subscribed. each; [apply fine_int; split; [discriminate|reflexivity]|apply fine_wf, W|apply fine_id, Hi]. }
  destruct (tget (su_topic m) (b_by_topic b)) as [l|].
  - destruct (nth_error (b_heap b) l) as [sub|] eqn:E; [|split; [split; assumption|discriminate]].
    assert (K := Forall_nth _ _ _ _ F E). split; [split; [exact G|apply Forall_put; [exact F|exact K]]|]. intros p [= <-]. apply Y, K.
  - assert (K := next_ok _ G). destruct (next_id (b_idgen b)) as [g i]. cbn [fst snd] in K. split; [split; [apply K|]|].
    + cbn. apply Forall_app. split; [exact F|]. repeat constructor; apply K.
    + intros p [= <-]. apply Y, K.
Qed.
Lemma unsubscribe_ok b s m : broker_ok b -> wf_id (us_request m) ->
  broker_ok (fst (b_unsubscribe b s m)) /\ forall p, snd (b_unsubscribe b s m) = Ok p -> good (rt_message p).
Proof.
  intros H W. unfold b_unsubscribe.
  destruct (zget s (b_by_session b)) as [own|]; [|split; [exact H|discriminate]].
  destruct (zget _ own) as [l|]; [|split; [exact H|discriminate]].
  destruct (nth_error (b_heap b) l) as [sub|] eqn:E; [|split; [exact H|discriminate]].
  destruct (negb _); [split; [exact H|discriminate]|].
  set (sub' := mkSub _ _ _).
  assert (K : broker_ok (set_bheap b (put (b_heap b) l sub'))).
  { destruct H as [G F]. split; [exact G|]. apply Forall_put; [exact F|]. exact (Forall_nth _ _ _ _ F E). }
  assert (K' := drop_topic_ok _ sub' K). destruct (drop_topic_if_empty _ _) as [b' [[]|e]]; (split; [exact K'|]); [|discriminate].
  intros p [= <-]. apply simple_good; [exact W|reflexivity|cbn; lia|]. each; [apply fine_int; split; [discriminate|reflexivity]|apply fine_wf, W].
Qed.

Lemma publish_ok b s m : broker_ok b -> good (Publish m) ->
  broker_ok (fst (b_receive_publish b s m)) /\
  forall p, snd (b_receive_publish b s m) = Ok p ->
    (forall q, pu_ack p = Some q -> good (rt_message q)) /\ (forall e, pu_event p = Some e -> good (Event e)).
Proof.
  intros [G F] [[W P] N]. cbn [wf_message wf_message_with] in W. unfold b_receive_publish.
  destruct (negb _); [split; [split; assumption|discriminate]|].
  assert (K := next_ok _ G). destruct (next_id (b_idgen b)) as [g i]. destruct K as [Kg Ki]. cbn [fst snd] in Kg, Ki.
  assert (B : broker_ok (set_bidgen b g)) by (split; [exact Kg|exact F]).
  assert (A : forall q, (if truthy (sget_default "acknowledge" (VBool false) (pb_options m))
      then Some (mkRouted (Published (mkPublished (pb_request m) (PyInt i))) s) else None) = Some q -> good (rt_message q)).
  { intros q. destruct (truthy _); [|discriminate]. intros [= <-]. apply simple_good; [split; [exact W|apply wf_of, Ki]|reflexivity|cbn; lia|].
    each; [apply fine_int; split; [discriminate|reflexivity]|apply fine_wf, W|apply fine_id, Ki]. }
  cbv zeta. destruct (tget _ _) as [l|].
  - destruct (nth_error _ l) as [sub|] eqn:E; [|split; [exact B|discriminate]]. split; [exact B|]. intros p [= <-]. cbn [pu_ack pu_event].
    split; [exact A|]. intros e [= <-].
    assert (S := Forall_nth _ _ _ _ F E). cbn beta in S.
    apply fine_parts in P. cbn [marshal] in P. unfold marshal_publish in P. apply Forall_app in P. destruct P as [_ P].
    apply simple_good; [split; apply wf_of; assumption| | |].
    + assert (NA : norm_args (pb_args m) (pb_kwargs m) = pb_args m). { injection N as N. destruct m as [a1 a2 a3 a4 a5]. cbn in *. congruence. }
      cbn [normalise ev_subscription ev_publication ev_args ev_kwargs ev_details]. rewrite NA. reflexivity.
    + cbn [marshal]. unfold marshal_event. rewrite app_length. cbn [ev_args ev_kwargs]. pose proof (tail_length (pb_args m) (pb_kwargs m)). cbn [length]. lia.
    + cbn [marshal]. unfold marshal_event. apply Forall_app. split; [|exact P]. clear P.
      each; [apply fine_int; split; [discriminate|reflexivity]|apply fine_id, S|apply fine_id, Ki|apply fine_nil].
  - split; [exact B|]. intros p [= <-]. split; [exact A|discriminate].
Qed.

Lemma error_good ty r uri : wf_id r -> - 2 ^ 63 <= ty < 2 ^ 64 -> (String.length uri < 100)%nat -> is_ascii (encode_str uri) = true ->
  good (plain_error ty r uri).
Proof.
  intros W T L A. apply simple_good; [exact W|reflexivity|cbn; lia|]. cbn [plain_error marshal]. unfold marshal_error. cbn [er_type er_request er_details er_uri er_args er_kwargs args_kwargs_tail app].
  each; [apply fine_int; split; [discriminate|reflexivity]|apply fine_int, T|apply fine_wf, W|apply fine_nil|apply fine_text; assumption].
Qed.

Lemma call_ok d s m : dealer_ok d -> good (Call m) ->
  dealer_ok (fst (d_call d s m)) /\ forall p, snd (d_call d s m) = Ok p -> good (rt_message p).
Proof.
  intros H [[W P] N]. cbn [wf_message wf_message_with] in W. unfold d_call.
  destruct (tget _ _) as [l|].
  2:{ split; [exact H|]. intros p [= <-]. apply error_good; [exact W|split; [discriminate|reflexivity]|cbn; lia|reflexivity]. }
  destruct (nth_error _ l) as [reg|] eqn:E; [|split; [exact H|discriminate]].
  destruct H as (G & F & Q & C). assert (R := Forall_nth _ _ _ _ F E). cbn beta in R.
  cbv zeta. set (callee := match reg_registrants reg with [] => 0 | (s0, _) :: _ => s0 end). clearbody callee.
  set (rp := sget_default OPTION_RECEIVE_PROGRESS _ _). set (pr := sget_default OPTION_PROGRESS _ _).
  set (fresh := let (g, id) := next_id (d_idgen d) in (add_call (set_didgen d g) (ca_request m) id s callee pr rp, id)).
  assert (Y : dealer_ok (fst fresh) /\ id_ok (snd fresh)).
  { subst fresh. assert (K := next_ok _ G). destruct (next_id (d_idgen d)) as [g i]. destruct K as [Kg Ki]. cbn [fst snd] in *. split; [|exact Ki].
    split; [exact Kg|]. split; [exact F|]. split; [apply (Forall_dset Z.eqb asked_ok); [exact Q|intros _; exact W]|].
    apply (Forall_dset zz_eqb id_ok); [exact C|exact Ki]. }
  set (chosen := if truthy pr then match zzget (s, pyint_Z (ca_request m)) (d_call_ids d) with Some id => (d, id) | None => fresh end else fresh).
  assert (Z : dealer_ok (fst chosen) /\ id_ok (snd chosen)).
  { subst chosen. destruct (truthy pr); [|exact Y]. destruct (zzget _ _) as [i|] eqn:D; [|exact Y]. cbn [fst snd].
    split; [split; [exact G|split; [exact F|split; [exact Q|exact C]]]|]. exact (Forall_dget _ id_ok _ _ _ C D). }
  clearbody chosen. destruct chosen as [d' i]. destruct Z as [Zd Zi]. cbn [fst snd] in *. split; [exact Zd|]. intros p [= <-]. cbn [rt_message].
  apply fine_parts in P. cbn [marshal] in P. unfold marshal_call in P. apply Forall_app in P. destruct P as [_ P].
  assert (NB : ca_bin m = no_payload). { injection N as N. destruct m as [a1 a2 a3 a4 a5 a6]. cbn in *. congruence. }
  assert (NA : norm_args (ca_args m) (ca_kwargs m) = ca_args m). { injection N as N. destruct m as [a1 a2 a3 a4 a5 a6]. cbn in *. congruence. }
  rewrite NB. cbn [bp_serializer bp_payload no_payload].
  apply simple_good; [split; apply wf_of; assumption| | |].
  - cbn [normalise iv_request iv_registration iv_args iv_kwargs iv_dets iv_bin]. rewrite NA. reflexivity.
  - cbn [marshal]. unfold marshal_invocation. rewrite app_length. pose proof (tail_length (ca_args m) (ca_kwargs m)). cbn [length iv_args iv_kwargs]. lia.
  - cbn [marshal]. unfold marshal_invocation. apply Forall_app. split; [|exact P]. clear P.
    each; [apply fine_int; split; [discriminate|reflexivity]|apply fine_id, Zi|apply fine_id, R|].
    change (iv_details _) with ((if truthy rp then [(VStr OPTION_RECEIVE_PROGRESS, VBool true)] else []) ++
                                (if truthy pr then [(VStr OPTION_PROGRESS, VBool true)] else [])).
    assert (K1 := fine_text OPTION_RECEIVE_PROGRESS ltac:(cbn; lia) eq_refl). assert (K2 := fine_text OPTION_PROGRESS ltac:(cbn; lia) eq_refl).
    destruct (truthy rp), (truthy pr); cbn [app]; vm_compute; repeat split; repeat constructor; try discriminate; cbn; intuition congruence.
Qed.

Lemma yield_ok d s m : dealer_ok d -> good (Yield m) ->
  dealer_ok (fst (d_yield d s m)) /\ forall p, snd (d_yield d s m) = Ok p -> Mem (rt_recipient p) -> good (rt_message p).
Proof.
  intros H [[W P] N]. unfold d_yield. destruct (zget _ (d_pending d)) as [inv|] eqn:E; [|split; [exact H|discriminate]].
  destruct (negb _); [split; [exact H|discriminate]|].
  destruct H as (G & F & Q & C). assert (Wi : asked_ok inv) by exact (Forall_dget _ asked_ok _ _ _ Q E).
  apply fine_parts in P. cbn [marshal] in P. unfold marshal_yield in P. apply Forall_app in P. destruct P as [P0 P].
  assert (Fo : fine (VDict (yi_options m))) by (inversion P0 as [|? ? _ P1]; inversion P1 as [|? ? _ P2]; inversion P2; assumption).
  assert (NA : norm_args (yi_args m) (yi_kwargs m) = yi_args m). { injection N as N. destruct m as [a1 a2 a3 a4 a5]. cbn in *. congruence. }
  set (pr := sget_default OPTION_PROGRESS _ _).
  assert (Fp := fine_default OPTION_PROGRESS (yi_options m) false Fo). fold pr in Fp.
  assert (Y : forall det, fine (VDict det) -> Mem (pi_caller inv) -> good (Result (mkResult (pi_request inv) (yi_args m) (yi_kwargs m) det no_payload))).
  { intros det Fd Me. specialize (Wi Me). apply simple_good; [exact Wi| | |].
    - cbn [normalise re_request re_args re_kwargs re_dets re_bin]. rewrite NA. reflexivity.
    - cbn [marshal]. unfold marshal_result. rewrite app_length. pose proof (tail_length (yi_args m) (yi_kwargs m)). cbn [length re_args re_kwargs]. lia.
    - cbn [marshal]. unfold marshal_result. apply Forall_app. split; [|exact P]. clear P P0.
      each; [apply fine_int; split; [discriminate|reflexivity]|apply fine_wf, Wi|exact Fd]. }
  cbv zeta. destruct (_ && _).
  - split; [split; [exact G|split; [exact F|split; [exact Q|exact C]]]|]. intros p [= <-] Me. apply Y; [|exact Me].
    destruct (dict_intro [(VStr OPTION_PROGRESS, pr)] 509) as [A B]; [repeat constructor; cbn; tauto|repeat constructor|reflexivity| |split; [exact A|exact B]].
    apply Forall_cons; [|constructor]. cbn [fst snd]. split; [|exact Fp]. apply key_portable; [cbn; lia|reflexivity].
  - destruct (zzmem _ _).
    + split; [|intros p [= <-] Me; apply Y; [apply fine_nil|exact Me]]. split; [exact G|]. split; [exact F|].
      split; [apply (Forall_ddel Z.eqb asked_ok), Q|apply (Forall_ddel zz_eqb id_ok), C].
    + split; [|discriminate]. split; [exact G|]. split; [exact F|]. split; [apply (Forall_ddel Z.eqb asked_ok), Q|exact C].
Qed.

Lemma register_ok d s m : dealer_ok d -> wf_id (rg_request m) ->
  dealer_ok (fst (d_register d s m)) /\ forall p, snd (d_register d s m) = Ok p -> good (rt_message p).
Proof.
  intros H W. unfold d_register. destruct (zget s (d_by_session d)) as [own|]; [|split; [exact H|discriminate]].
  destruct (tget _ _) as [l|].
  { split; [exact H|]. intros p [= <-]. apply error_good; [exact W|split; [discriminate|reflexivity]|cbn; lia|reflexivity]. }
  destruct H as (G & F & Q & C). assert (K := next_ok _ G). destruct (next_id (d_idgen d)) as [g i]. destruct K as [Kg Ki]. cbn [fst snd] in *.
  split.
  - split; [exact Kg|]. split; [|split; [exact Q|exact C]]. cbn. apply Forall_app. split; [exact F|]. apply Forall_cons; [exact Ki|constructor].
  - intros p [= <-]. apply simple_good; [split; [exact W|apply wf_of, Ki]|reflexivity|cbn; lia|].
    each; [apply fine_int; split; [discriminate|reflexivity]|apply fine_wf, W|apply fine_id, Ki].
Qed.

Lemma unregister_ok d s m : dealer_ok d -> wf_id (ur_request m) ->
  dealer_ok (fst (d_unregister d s m)) /\ forall p, snd (d_unregister d s m) = Ok p -> good (rt_message p).
Proof.
  intros H W. unfold d_unregister. destruct (zget s (d_by_session d)) as [own|]; [|split; [exact H|discriminate]].
  destruct (zget _ own) as [l|]; [|split; [exact H|discriminate]].
  destruct (nth_error (d_heap d) l) as [reg|] eqn:E; [|split; [exact H|discriminate]].
  destruct (negb _); [split; [exact H|discriminate]|]. set (reg' := mkReg _ _ _).
  assert (K : dealer_ok (set_dheap d (put (d_heap d) l reg'))).
  { destruct H as (G & F & Q & C). split; [exact G|]. split; [|split; [exact Q|exact C]]. apply Forall_put; [exact F|]. exact (Forall_nth _ _ _ _ F E). }
  assert (Y : good (Unregistered (mkUnregistered (ur_request m)))).
  { apply simple_good; [exact W|reflexivity|cbn; lia|]. each; [apply fine_int; split; [discriminate|reflexivity]|apply fine_wf, W]. }
  cbv zeta. destruct (reg_registrants reg').
  - destruct (tmem _ _); (split; [exact K|]); [intros p [= <-]; exact Y|discriminate].
  - split; [exact K|]. intros q [= <-]. exact Y.
Qed.

Lemma d_error_ok d m : dealer_ok d -> good (Error m) ->
  dealer_ok (fst (d_error d m)) /\ forall p, snd (d_error d m) = Ok p -> Mem (rt_recipient p) -> good (rt_message p).
Proof.
  intros H [[W P] N]. unfold d_error. destruct (negb _); [split; [exact H|discriminate]|].
  destruct (zget _ (d_pending d)) as [inv|] eqn:E; [|split; [exact H|discriminate]].
  destruct H as (G & F & Q & C). assert (Wi : asked_ok inv) by exact (Forall_dget _ asked_ok _ _ _ Q E).
  split.
  - split; [exact G|]. split; [exact F|]. split; [apply (Forall_ddel Z.eqb asked_ok), Q|exact C].
  - intros p [= <-] Me. specialize (Wi Me). apply fine_parts in P. cbn [marshal] in P. unfold marshal_error in P. apply Forall_app in P. destruct P as [P0 P].
    assert (NA : norm_args (er_args m) (er_kwargs m) = er_args m). { injection N as N. destruct m as [a1 a2 a3 a4 a5 a6]. cbn in *. congruence. }
    apply simple_good; [exact Wi| | |].
    + cbn [rt_message normalise er_type er_request er_uri er_args er_kwargs er_details]. rewrite NA. reflexivity.
    + cbn [rt_message marshal]. unfold marshal_error. rewrite app_length. pose proof (tail_length (er_args m) (er_kwargs m)). cbn [length er_args er_kwargs]. lia.
    + cbn [rt_message marshal]. unfold marshal_error. apply Forall_app. split; [|exact P]. clear P.
      inversion P0 as [|? ? _ P1]; inversion P1 as [|? ? _ P2]; inversion P2 as [|? ? _ P3]; inversion P3 as [|? ? D P4]; inversion P4 as [|? ? U _].
      each; [apply fine_int; split; [discriminate|reflexivity]|apply fine_int; split; [discriminate|reflexivity]|apply fine_wf, Wi|exact D|exact U].
Qed.

Lemma route_ok b d s m : broker_ok b -> dealer_ok d -> good m ->
  let '(b', d', posts) := route b d s m in
  broker_ok b' /\ dealer_ok d' /\ Forall (fun p => Mem (rt_recipient p) -> good (rt_message p)) posts.
Proof.
  intros B D Gm. assert (W := proj1 (proj1 Gm)).
  destruct m; cbn [route]; try (split; [exact B|split; [exact D|constructor]]).
  - (* Error *) cbn [d_receive_message]. destruct (d_error_ok d m D Gm) as [X Y]. destruct (d_error d m) as [d' [p|e]]; cbn [fst snd] in *;
      (split; [exact B|split; [exact X|]]); [apply Forall_cons; [intros Me; apply Y; [reflexivity|exact Me]|constructor]|constructor].
  - (* Publish *) destruct (publish_ok b s m B Gm) as [X Y]. destruct (b_receive_publish b s m) as [b' [p|e]]; cbn [fst snd] in *;
      (split; [exact X|split; [exact D|]]); [|constructor].
    destruct (Y p eq_refl) as [Y1 Y2]. apply Forall_app. split.
    + destruct (pu_ack p) as [q|]; [apply Forall_cons; [intros _; apply Y1; reflexivity|constructor]|constructor].
    + destruct (pu_event p) as [e|]; [|constructor]. specialize (Y2 e eq_refl). induction (pu_recipients p); cbn [map]; constructor; auto.
  - (* Subscribe *) cbn [b_receive_message]. destruct (subscribe_ok b s m B W) as [X Y]. destruct (b_subscribe b s m) as [b' [p|e]]; cbn [fst snd] in *;
      (split; [exact X|split; [exact D|]]); [apply Forall_cons; [intros _; apply Y; reflexivity|constructor]|constructor].
  - cbn [b_receive_message]. destruct (unsubscribe_ok b s m B (proj1 W)) as [X Y]. destruct (b_unsubscribe b s m) as [b' [p|e]]; cbn [fst snd] in *;
      (split; [exact X|split; [exact D|]]); [apply Forall_cons; [intros _; apply Y; reflexivity|constructor]|constructor].
  - (* Call *) cbn [d_receive_message]. destruct (call_ok d s m D Gm) as [X Y]. destruct (d_call d s m) as [d' [p|e]]; cbn [fst snd] in *;
      (split; [exact B|split; [exact X|]]); [apply Forall_cons; [intros _; apply Y; reflexivity|constructor]|constructor].
  - (* Register *) cbn [d_receive_message]. destruct (register_ok d s m D W) as [X Y]. destruct (d_register d s m) as [d' [p|e]]; cbn [fst snd] in *;
      (split; [exact B|split; [exact X|]]); [apply Forall_cons; [intros _; apply Y; reflexivity|constructor]|constructor].
  - cbn [d_receive_message]. destruct (unregister_ok d s m D (proj1 W)) as [X Y]. destruct (d_unregister d s m) as [d' [p|e]]; cbn [fst snd] in *;
      (split; [exact B|split; [exact X|]]); [apply Forall_cons; [intros _; apply Y; reflexivity|constructor]|constructor].
  - (* Yield *) cbn [d_receive_message]. destruct (yield_ok d s m D Gm) as [X Y]. destruct (d_yield d s m) as [d' [p|e]]; cbn [fst snd] in *;
      (split; [exact B|split; [exact X|]]); [apply Forall_cons; [intros Me; apply Y; [reflexivity|exact Me]|constructor]|constructor].
Qed.

End Members.

(** ** The simulation *)
Definition link (c : codec) (bs : list bytes) (ms : list message) : Prop :=
  Forall2 (fun b m => good m /\ serialize c m = Ok b) bs ms.
Definition like (x : bclient) (y : client) : Prop :=
  is_python_codec (bc_codec x) /\ bc_session x = cl_session y /\ link (bc_codec x) (bc_up x) (cl_up y) /\ link (bc_codec x) (bc_down x) (cl_down y).
Definition alike (d' : list (Z * bclient)) (d : list (Z * client)) : Prop :=
  Forall2 (fun e' e => fst e' = fst e /\ like (snd e') (snd e)) d' d.
Definition sim (n' : bnet) (n : net) : Prop :=
  alike (bn_clients n') (nt_clients n) /\ bn_broker n' = nt_broker n /\ bn_dealer n' = nt_dealer n /\
  broker_ok (nt_broker n) /\ dealer_ok (fun _ => True) (nt_dealer n).

Lemma alike_get k d' d : alike d' d ->
  match zget k d', zget k d with Some x, Some y => like x y | None, None => True | _, _ => False end.
Proof.
  intros H. induction H as [|[k1 x] [k2 y] d' d [A B] H IH]; cbn; [exact Logic.I|]. cbn [fst snd] in *. subst k2.
  destruct (k =? k1); [exact B|exact IH].
Qed.
Lemma alike_set k x y d' d : alike d' d -> like x y -> alike (zset k x d') (zset k y d).
Proof.
  intros H L. induction H as [|[k1 x1] [k2 y1] d' d [A B] H IH]; unfold zset; cbn [dset].
  - constructor; [split; [reflexivity|exact L]|constructor].
  - cbn [fst snd] in *. subst k2. destruct (k =? k1); constructor; auto.
Qed.
Lemma alike_del k d' d : alike d' d -> alike (zdel k d') (zdel k d).
Proof.
  intros H. induction H as [|[k1 x1] [k2 y1] d' d [A B] H IH]; unfold zdel; cbn [ddel]; [constructor|].
  cbn [fst snd] in *. subst k2. destruct (k =? k1); [exact H|constructor; auto].
Qed.
Lemma link_app c b1 m1 b2 m2 : link c b1 m1 -> link c b2 m2 -> link c (b1 ++ b2) (m1 ++ m2).
Proof. apply Forall2_app. Qed.
Lemma link_encoded c ms : is_python_codec c -> Forall good ms -> link c (encoded c ms) ms.
Proof.
  intros C H. unfold encoded. induction H as [|m ms G H IH]; cbn [flat_map]; [constructor|].
  destruct (good_wire c m C G) as (b & S & _). rewrite S. cbn [app]. constructor; [split; assumption|exact IH].
Qed.
Lemma mail_good posts s : Forall (fun p => good (rt_message p)) posts -> Forall good (mail posts s).
Proof.
  intros H. unfold mail. induction H as [|p posts G H IH]; cbn [filter map]; [constructor|]. destruct (_ =? _); [constructor; assumption|exact IH].
Qed.
Lemma alike_post posts d' d : Forall (fun p => good (rt_message p)) posts -> alike d' d -> alike (bpost posts d') (post posts d).
Proof.
  intros G H. induction H as [|[k1 x] [k2 y] d' d [A B] H IH]; cbn [bpost post map]; constructor; [|exact IH].
  cbn [fst snd] in *. subst k2. split; [reflexivity|]. destruct B as (C & S & U & D). repeat split; cbn; auto.
  apply link_app; [exact D|]. apply link_encoded; [exact C|]. apply mail_good, G.
Qed.

Ltac stay := split; [|exact Logic.I]; split; [assumption|split; [reflexivity|split; [reflexivity|split; assumption]]].
Lemma sim_step n' n a : sim n' n -> usable a ->
  sim (fst (bytes_step n' a)) (fst (nstep n (erase a))) /\ same_out (snd (nstep n (erase a))) (snd (bytes_step n' a)).
Proof.
  intros (L & Eb & Ed & Bo & Do) U. destruct n' as [cs' b' d'], n as [cs b d]. cbn [bn_clients nt_clients bn_broker nt_broker bn_dealer nt_dealer] in *. subst b' d'.
  destruct a as [det c|s|s m|s|s]; cbn [usable erase bytes_step nstep bn_clients nt_clients bn_broker nt_broker bn_dealer nt_dealer] in *.
  - assert (Kb := b_add_session_ok b det Bo). assert (Kd := d_add_session_ok' _ d det Do).
    destruct (b_add_session b det) as [b1 rb], (d_add_session d det) as [d1 rd]. cbn [fst] in *.
    destruct rb; [|stay].
    destruct rd; [|stay].
    split; [|exact Logic.I]. split; [|split; [reflexivity|split; [reflexivity|split; assumption]]]. cbn. apply alike_set; [exact L|].
    split; [exact U|]. split; [reflexivity|]. split; constructor.
  - assert (Kb := b_remove_session_ok b s Bo). assert (Kd := d_remove_session_ok' _ d s Do).
    destruct (b_remove_session b s) as [b1 rb], (d_remove_session d s) as [d1 rd]. cbn [fst] in *.
    destruct rb; [|stay].
    destruct rd; [|stay].
    split; [|exact Logic.I]. split; [|split; [reflexivity|split; [reflexivity|split; assumption]]]. cbn. apply alike_del, L.
  - assert (G := alike_get s _ _ L). destruct (zget s cs') as [[c se up down]|], (zget s cs) as [[cl cu cd]|]; try contradiction.
    + destruct G as (C & Es & Lu & Ld). cbn [bc_codec bc_session bc_up bc_down cl_session cl_up cl_down] in *. subst se.
      unfold send_message. rewrite track_normalise. destruct (send_track cl m) as [c' [[]|e]]; cbn [bind].
      * assert (Gm := sendable_normalise m U). destruct (good_wire c _ C Gm) as (w & S & _).
        assert (S' : serialize c m = Ok w) by (unfold serialize in *; rewrite marshal_normalise in S; exact S). rewrite S'.
        split; [|exact Logic.I]. cbn. split; [|split; [reflexivity|split; [reflexivity|split; assumption]]]. apply alike_set; [exact L|].
        split; [exact C|]. split; [reflexivity|]. split; [|exact Ld]. apply link_app; [exact Lu|]. constructor; [split; assumption|constructor].
      * split; [|exact Logic.I]. cbn. split; [|split; [reflexivity|split; [reflexivity|split; assumption]]]. apply alike_set; [exact L|].
        split; [exact C|]. split; [reflexivity|]. split; assumption.
    + stay.
  - assert (G := alike_get s _ _ L). destruct (zget s cs') as [[c se up down]|], (zget s cs) as [[cl cu cd]|]; try contradiction.
    + destruct G as (C & Es & Lu & Ld). cbn [bc_codec bc_session bc_up bc_down cl_session cl_up cl_down] in *. subst se.
      destruct Lu as [|w m up cu [Gm S] Lu]; [stay|].
      destruct (good_wire c m C Gm) as (w' & S' & D'). rewrite S in S'. injection S' as <-. rewrite D'.
      assert (R := route_ok _ b d s m Bo Do Gm). destruct (route b d s m) as [[b1 d1] posts]. destruct R as (Rb & Rd & Rp).
      split; [|exact Logic.I]. cbn. split; [|split; [reflexivity|split; [reflexivity|split; assumption]]].
      apply alike_post; [eapply Forall_impl; [|exact Rp]; intros p Hp; exact (Hp Logic.I)|]. apply alike_set; [exact L|]. split; [exact C|]. split; [reflexivity|]. split; assumption.
    + stay.
  - assert (G := alike_get s _ _ L). destruct (zget s cs') as [[c se up down]|], (zget s cs) as [[cl cu cd]|]; try contradiction.
    + destruct G as (C & Es & Lu & Ld). cbn [bc_codec bc_session bc_up bc_down cl_session cl_up cl_down] in *. subst se.
      destruct Ld as [|w m down cd [Gm S] Ld]; [stay|].
      destruct (good_wire c m C Gm) as (w' & S' & D'). rewrite S in S'. injection S' as <-. unfold receive. rewrite D'.
      destruct (receive_message cl m) as [c' r]. split; [|split; reflexivity].
      cbn. split; [|split; [reflexivity|split; [reflexivity|split; assumption]]]. apply alike_set; [exact L|].
      split; [exact C|]. split; [reflexivity|]. split; assumption.
    + stay.
Qed.

Lemma sim_init : sim bnet_init net_init.
Proof. repeat split; try constructor; cbn; try discriminate; constructor. Qed.

Lemma sim_run acts : Forall usable acts ->
  sim (fst (bytes_run acts)) (fst (nrun (map erase acts))) /\ same_trace (snd (nrun (map erase acts))) (snd (bytes_run acts)).
Proof.
  unfold bytes_run, nrun.
  assert (H : forall acts s' s, Forall usable acts -> sim (fst s') (fst s) -> same_trace (snd s) (snd s') ->
    sim (fst (fold_left bytes_step_h acts s')) (fst (fold_left nstep_h (map erase acts) s)) /\
    same_trace (snd (fold_left nstep_h (map erase acts) s)) (snd (fold_left bytes_step_h acts s'))).
  { clear acts. induction acts as [|a acts IH]; intros s' s U S T; [split; assumption|]. inversion U; subst. cbn [map fold_left].
    destruct (sim_step (fst s') (fst s) a S H1) as [S1 O1].
    apply IH; [assumption| |]; unfold bytes_step_h, nstep_h; destruct (bytes_step (fst s') a) as [n1' o1'], (nstep (fst s) (erase a)) as [n1 o1];
      cbn [fst snd] in *; [exact S1|]. constructor; [split; [reflexivity|exact O1]|exact T]. }
  intros U. apply H; [exact U|apply sim_init|constructor].
Qed.

(** ** What the network theorems say about bytes *)
Lemma erase_send a s m : erase a = ASend s m -> exists m0, a = WSend s m0 /\ m = normalise m0.
Proof. destruct a; try discriminate. intros [= <- <-]. eauto. Qed.
Lemma erase_put a s m : erase a <> APut s m.
Proof. destruct a; discriminate. Qed.
Lemma no_put_bytes acts s m : ~ In (APut s m) (map erase acts).
Proof. intros H. apply in_map_iff in H. destruct H as (a & E & _). exact (erase_put _ _ _ E). Qed.
Lemma has_sent_bytes acts s m : has_sent (map erase acts) s m -> exists m0, In (WSend s m0) acts /\ m = normalise m0.
Proof. intros [H|H]; [|destruct (no_put_bytes _ _ _ H)]. apply in_map_iff in H. destruct H as (a & E & I0). apply erase_send in E. destruct E as (x & -> & ->). eauto. Qed.
Lemma no_reuse_bytes hf acts : bytes_no_reuse hf acts -> no_reuse hf (map erase acts).
Proof.
  intros R. split; [intros s m; apply no_put_bytes|]. intros before s m1 between m2 after k r E Hk A1 A2.
  apply map_eq_app in E. destruct E as (b0 & rest & -> & Eb & E). apply map_eq_cons in E. destruct E as (a1 & rest1 & -> & E1 & E).
  apply map_eq_app in E. destruct E as (w0 & rest2 & -> & Ew & E). apply map_eq_cons in E. destruct E as (a2 & rest3 & -> & E2 & E).
  apply erase_send in E1, E2. destruct E1 as (x1 & -> & ->), E2 as (x2 & -> & ->). rewrite asks_normalise in A1, A2.
  specialize (R _ _ _ _ _ _ _ _ eq_refl Hk A1 A2). subst between. apply in_map_iff. exists (WLeave s). split; [reflexivity|exact R].
Qed.
Lemma fresh_bytes acts : bytes_fresh_sessions acts -> fresh_sessions (map erase acts).
Proof.
  unfold bytes_fresh_sessions, fresh_sessions, joined. intros H. rewrite flat_map_concat_map, map_map, <- flat_map_concat_map.
  erewrite flat_map_ext; [exact H|]. intros []; reflexivity.
Qed.
Lemma progress_bytes acts : bytes_no_progress acts -> no_progress (map erase acts).
Proof.
  intros [H|H]; [left|right]; intros s m I0; apply has_sent_bytes in I0; destruct I0 as (x & I0 & E).
  - destruct x; try discriminate. injection E as ->. exact (H _ _ I0).
  - destruct x; try discriminate. injection E as ->. exact (H _ _ I0).
Qed.
Lemma delivered_bytes acts s d r : Forall usable acts -> In (WDeliver s, WDelivered d r) (snd (bytes_run acts)) ->
  exists m, d = Ok m /\ In (ADeliver s, Delivered m r) (snd (nrun (map erase acts))).
Proof.
  intros U H. destruct (sim_run acts U) as [_ T]. induction T as [|[a o] [a' o'] t t' [A B] T IH]; [contradiction|].
  destruct H as [[= -> ->]|H]; [|destruct (IH H) as (m & E & I0); exists m; split; [exact E|right; exact I0]].
  cbn [fst snd] in *. subst a. destruct o as [m r0|]; [|contradiction]. destruct B as [-> ->]. exists m. split; [reflexivity|left; reflexivity].
Qed.
Lemma delivered_objects acts s m r : Forall usable acts -> In (ADeliver s, Delivered m r) (snd (nrun (map erase acts))) ->
  In (WDeliver s, WDelivered (Ok m) r) (snd (bytes_run acts)).
Proof.
  intros U H. destruct (sim_run acts U) as [_ T]. induction T as [|[a o] [a' o'] t t' [A B] T IH]; [contradiction|].
  destruct H as [[= -> ->]|H]; [|right; exact (IH H)].
  cbn [fst snd] in *. destruct o' as [d r0|]; [|contradiction]. destruct B as [-> ->]. destruct a'; try discriminate. injection A as <-. left. reflexivity.
Qed.
Lemma connected_bytes s acts : Forall usable acts -> bytes_connected s (fst (bytes_run acts)) = connected s (fst (nrun (map erase acts))).
Proof.
  intros U. destruct (sim_run acts U) as [(L & _) _]. assert (G := alike_get s _ _ L). unfold bytes_connected, connected, zmem, dmem.
  unfold zget in G. destruct (dget Z.eqb s (bn_clients _)), (dget Z.eqb s (nt_clients _)); try contradiction; reflexivity.
Qed.
Lemma idle_bytes s acts : Forall usable acts -> bytes_idle s (fst (bytes_run acts)) -> idle s (fst (nrun (map erase acts))).
Proof.
  intros U (c & se & H). destruct (sim_run acts U) as [(L & _) _]. assert (G := alike_get s _ _ L). rewrite H in G.
  unfold idle. destruct (zget s (nt_clients _)) as [[c0 u0 d0]|]; [|contradiction]. destruct G as (_ & _ & Gu & Gd). cbn in Gu, Gd.
  inversion Gu; inversion Gd; subst. eexists. reflexivity.
Qed.
Lemma answers_normalise m x : answers (normalise m) x = answers m x.
Proof. destruct m; reflexivity. Qed.
Lemma got_bytes s m acts : Forall usable acts -> got_answer s (normalise m) (snd (nrun (map erase acts))) -> bytes_got_answer s m (snd (bytes_run acts)).
Proof.
  intros U (x & A & H). exists x. rewrite answers_normalise in A. split; [exact A|]. apply delivered_objects; assumption.
Qed.
Lemma waiting_bytes s r acts : Forall usable acts -> waiting s r (fst (nrun (map erase acts))) -> bytes_waiting s r (fst (bytes_run acts)).
Proof. intros U H. destruct (sim_run acts U) as [(_ & _ & E & _) _]. unfold bytes_waiting. rewrite E. exact H. Qed.
Lemma leave_bytes s acts : ~ In (WLeave s) acts -> ~ In (ALeave s) (map erase acts).
Proof. intros H K. apply in_map_iff in K. destruct K as (a & E & K). destruct a; try discriminate. injection E as ->. exact (H K). Qed.

Lemma sends_bytes acts s m : Forall usable acts -> sends (map erase acts) s m -> bytes_sends acts s m.
Proof.
  intros U (b & x & f & E & P & C). apply map_eq_app in E. destruct E as (b0 & rest & -> & <- & E). apply map_eq_cons in E. destruct E as (a & f0 & -> & <- & _).
  destruct P as [E|E]; [|destruct (erase_put _ _ _ E)]. apply erase_send in E. destruct E as (m0 & -> & ->). exists b0, m0, f0. split; [reflexivity|]. split; [|reflexivity].
  rewrite connected_bytes; [exact C|]. apply Forall_app in U. apply U.
Qed.
Lemma deliver_now_bytes acts s d r : Forall usable acts -> snd (bytes_step (fst (bytes_run acts)) (WDeliver s)) = WDelivered d r ->
  exists m, d = Ok m /\ snd (nstep (fst (nrun (map erase acts))) (ADeliver s)) = Delivered m r.
Proof.
  intros U H. destruct (sim_run acts U) as [S _]. destruct (sim_step _ _ (WDeliver s) S Logic.I) as [_ K]. rewrite H in K. cbn [erase] in K.
  destruct (snd (nstep _ _)) as [m r'|]; [|destruct K]. destruct K as [-> ->]. exists m. split; reflexivity.
Qed.
Lemma delivered_from_bytes before s d r : Forall usable before ->
  snd (bytes_step (fst (bytes_run before)) (WDeliver s)) = WDelivered d r ->
  exists m, d = Ok m /\ comes_from (bytes_sends before) s m.
Proof.
  intros U H. destruct (deliver_now_bytes before s d r U H) as (m & -> & K). exists m. split; [reflexivity|].
  apply delivered_from in K. apply (comes_mono (sends (map erase before))); [|exact K]. intros s0 m0. apply sends_bytes, U.
Qed.

Lemma routings_bytes acts : routings (map erase acts) = bytes_routings acts.
Proof. unfold routings, bytes_routings. f_equal. induction acts as [|a acts IH]; [reflexivity|]. destruct a; cbn [map filter erase is_route length]; auto. Qed.
