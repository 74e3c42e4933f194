(** * HostileFacts: what reaches a client of this library when other clients send arbitrary bytes. *)
From Coq Require Import String Ascii List ZArith Bool Lia.
From Verif Require Import PyBase Encoding Messages Validate Parse IdGen Serializer Codecs Session Joiner Broker Dealer SpecDealer Network SpecNetwork NetworkFacts NetworkInv NetworkLive NetworkFlow NetworkDelivery.
From Verif Require Import DictFacts BrokerFacts SpecSchema RoundTripFacts SpecCodec CodecFacts CodecsFacts HandshakeFacts HandshakeCodec ByteNetwork SpecByteNetwork ByteNetworkFacts ByteFlowFacts.
From Verif Require Import SchemaFacts HeaderFacts HostileNetwork SpecHostile.
Import ListNotations.
Local Open Scope string_scope.
Local Open Scope Z_scope.
Local Open Scope list_scope.

(** ** Messages whose contents come from elsewhere *)
Definition headed (m : message) : Prop :=
  match m with
  | Event e => wf_id (ev_subscription e) /\ wf_id (ev_publication e)
  | Invocation v => wf_id (iv_request v) /\ wf_id (iv_registration v)
  | Result r => wf_id (re_request r)
  | Error e => er_type e = PyInt T_CALL /\ wf_id (er_request e)
  | _ => False
  end.
Definition same_head (m m' : message) : Prop :=
  match m, m' with
  | Event a, Event b => ev_subscription b = ev_subscription a /\ ev_publication b = ev_publication a
  | Invocation a, Invocation b => iv_request b = iv_request a /\ iv_registration b = iv_registration a
  | Result a, Result b => re_request b = re_request a
  | Error a, Error b => er_type b = er_type a /\ er_request b = er_request a
  | _, _ => m' = m
  end.
Lemma same_head_refl m : same_head m m.
Proof. destruct m; cbn; auto. Qed.
Lemma same_head_half m m' : same_head m m' -> message_half m' = message_half m.
Proof. destruct m, m'; cbn; intros; try congruence; try reflexivity. Qed.


Lemma parse_head z r m : to_message (VList (VInt z :: r)) = Ok m -> message_TYPE m = z /\ (filtered_class (class_of m) = false -> marshal m = VInt z :: r).
Proof.
  intros H. assert (T : message_TYPE m = z).
  { destruct (to_message_ok _ _ H) as (h & r' & i & [= <- <-] & Hi & Hc & _). cbn in Hi. injection Hi as <-. rewrite message_TYPE_code. symmetry. exact Hc. }
  split; [exact T|]. intros F. destruct (remarshal _ _ H F) as (h & r' & [= <- <-] & M & _). rewrite M, T. reflexivity.
Qed.
Lemma pyint_val_int p z : pyint_val p = VInt z -> p = PyInt z.
Proof. destruct p; [intros [= <-]; reflexivity|discriminate]. Qed.
Lemma wf_small i : wf_id i -> exists z, i = PyInt z /\ small z.
Proof. intros (z & -> & H). exists z. split; [reflexivity|]. unfold small. split; [lia|apply H]. Qed.
Lemma code_small z : 0 <= z < 100 -> small z.
Proof. unfold small. intros H. split; [lia|]. apply Z.le_trans with 100; [lia|discriminate]. Qed.

(** The head of a message survives a serializer of the library. *)
Lemma head_survives c m b m' : is_python_codec c -> headed m -> serialize c m = Ok b -> deserialize c b = Ok m' -> same_head m m'.
Proof.
  intros C Hm S D. unfold deserialize in D. destruct (loads c b) as [v|] eqn:L; [|discriminate]. cbn [bind] in D.
  unfold serialize in S. pose proof (python_keeps_head c C) as K.
  assert (G : forall zs l, marshal m = map VInt zs ++ l -> Forall small zs -> zs <> [] -> (length zs + length l <= 10)%nat -> exists l', v = VList (map VInt zs ++ l')).
  { intros zs l E F N Len. apply (K zs l b v F N Len); [rewrite <- E; exact S|exact L]. }
  destruct m; try contradiction; cbn [headed] in Hm.
  - destruct Hm as [Ht Hr]. apply wf_small in Hr. destruct Hr as (r & Er & Sr).
    destruct (G [8; 48; r] (tl (tl (tl (marshal (Error m)))))) as (l' & ->).
    { cbn [marshal]. unfold marshal_error. rewrite Ht, Er. reflexivity. }
    { repeat (constructor; [first [exact Sr|apply code_small; lia]|]). constructor. }
    { discriminate. }
    { cbn [marshal]. unfold marshal_error. pose proof (tail_length (er_args m) (er_kwargs m)). cbn [tl app length]. rewrite ?app_length. cbn [length]. lia. }
    destruct (parse_head _ _ _ D) as [T M]. destruct m'; try discriminate T. specialize (M eq_refl). cbn [marshal] in M. unfold marshal_error in M. cbn [app map] in M.
    injection M as M1 M2 _. apply pyint_val_int in M1, M2. cbn. rewrite Ht, Er, M1, M2. split; reflexivity.
  - destruct Hm as [Hs Hp]. apply wf_small in Hs, Hp. destruct Hs as (x & Ex & Sx), Hp as (y & Ey & Sy).
    destruct (G [36; x; y] (tl (tl (tl (marshal (Event m)))))) as (l' & ->).
    { cbn [marshal]. unfold marshal_event. rewrite Ex, Ey. reflexivity. }
    { repeat (constructor; [first [assumption|apply code_small; lia]|]). constructor. }
    { discriminate. }
    { cbn [marshal]. unfold marshal_event. pose proof (tail_length (ev_args m) (ev_kwargs m)). cbn [tl app length]. rewrite ?app_length. cbn [length]. lia. }
    destruct (parse_head _ _ _ D) as [T M]. destruct m'; try discriminate T. specialize (M eq_refl). cbn [marshal] in M. unfold marshal_event in M. cbn [app map] in M.
    injection M as M1 M2 _. apply pyint_val_int in M1, M2. cbn. rewrite Ex, Ey, M1, M2. split; reflexivity.
  - apply wf_small in Hm. destruct Hm as (x & Ex & Sx).
    destruct (G [50; x] (tl (tl (marshal (Result m))))) as (l' & ->).
    { cbn [marshal]. unfold marshal_result. rewrite Ex. reflexivity. }
    { repeat (constructor; [first [assumption|apply code_small; lia]|]). constructor. }
    { discriminate. }
    { cbn [marshal]. unfold marshal_result. pose proof (tail_length (re_args m) (re_kwargs m)). cbn [tl app length]. rewrite ?app_length. cbn [length]. lia. }
    destruct (parse_head _ _ _ D) as [T M]. destruct m'; try discriminate T. specialize (M eq_refl). cbn [marshal] in M. unfold marshal_result in M. cbn [app map] in M.
    injection M as M1 _. apply pyint_val_int in M1. cbn. rewrite Ex, M1. reflexivity.
  - destruct Hm as [Hs Hp]. apply wf_small in Hs, Hp. destruct Hs as (x & Ex & Sx), Hp as (y & Ey & Sy).
    destruct (G [68; x; y] (tl (tl (tl (marshal (Invocation m)))))) as (l' & ->).
    { cbn [marshal]. unfold marshal_invocation. rewrite Ex, Ey. reflexivity. }
    { repeat (constructor; [first [assumption|apply code_small; lia]|]). constructor. }
    { discriminate. }
    { cbn [marshal]. unfold marshal_invocation. pose proof (tail_length (iv_args m) (iv_kwargs m)). cbn [tl app length]. rewrite ?app_length. cbn [length]. lia. }
    destruct (parse_head _ _ _ D) as [T M]. destruct m'; try discriminate T. specialize (M eq_refl). cbn [marshal] in M. unfold marshal_invocation in M. cbn [app map] in M.
    injection M as M1 M2 _. apply pyint_val_int in M1, M2. cbn. rewrite Ex, Ey, M1, M2. split; reflexivity.
Qed.
Definition fit (m : message) : Prop := good m \/ headed m.
Lemma fit_arrives c m b : is_python_codec c -> fit m -> serialize c m = Ok b ->
  (good m -> deserialize c b = Ok m) /\ forall m', deserialize c b = Ok m' -> same_head m m'.
Proof.
  intros C F S. split.
  - intros G. destruct (good_wire c m C G) as (b' & S' & D). rewrite S in S'. injection S' as <-. exact D.
  - intros m' D. destruct F as [G|H]; [|exact (head_survives c m b m' C H S D)].
    destruct (good_wire c m C G) as (b' & S' & D'). rewrite S in S'. injection S' as <-. rewrite D' in D. injection D as <-. apply same_head_refl.
Qed.

(** ** What the router makes of messages of other clients *)
Section Others.
Context (Mem : Z -> Prop).
Definition fit_for (p : routed) : Prop := Mem (rt_recipient p) -> headed (rt_message p).
Lemma to_sender s m : ~ Mem s -> fit_for (mkRouted m s).
Proof. intros N H. destruct (N H). Qed.

Lemma subscribe_any b s m : ~ Mem s -> broker_ok b -> broker_ok (fst (b_subscribe b s m)) /\ forall p, snd (b_subscribe b s m) = Ok p -> fit_for p.
Proof.
  intros N [G F]. unfold b_subscribe. destruct (zget s (b_by_session b)) as [own|]; [|split; [split; assumption|discriminate]].
  destruct (tget (su_topic m) (b_by_topic b)) as [l|].
  - destruct (nth_error (b_heap b) l) as [sub|] eqn:E; [|split; [split; assumption|discriminate]].
    assert (K := Forall_nth _ _ _ _ F E). split; [split; [exact G|apply Forall_put; [exact F|exact K]]|]. intros p [= <-]. apply to_sender, N.
  - assert (K := next_ok _ G). destruct (next_id (b_idgen b)) as [g i]. cbn [fst snd] in K. split; [split; [apply K|]|].
    + cbn. apply Forall_app. split; [exact F|]. repeat constructor; apply K.
    + intros p [= <-]. apply to_sender, N.
Qed.
Lemma unsubscribe_any b s m : ~ Mem s -> broker_ok b -> broker_ok (fst (b_unsubscribe b s m)) /\ forall p, snd (b_unsubscribe b s m) = Ok p -> fit_for p.
Proof.
  intros N H. unfold b_unsubscribe.
  destruct (zget s (b_by_session b)) as [own|]; [|split; [exact H|discriminate]].
  destruct (zget _ own) as [l|]; [|split; [exact H|discriminate]].
  destruct (nth_error (b_heap b) l) as [sub|] eqn:E; [|split; [exact H|discriminate]].
  destruct (negb _); [split; [exact H|discriminate]|].
  set (sub' := mkSub _ _ _).
  assert (K : broker_ok (set_bheap b (put (b_heap b) l sub'))).
  { destruct H as [G F]. split; [exact G|]. apply Forall_put; [exact F|]. exact (Forall_nth _ _ _ _ F E). }
  assert (K' := drop_topic_ok _ sub' K). destruct (drop_topic_if_empty _ _) as [b' [[]|e]]; (split; [exact K'|]); [|discriminate].
  intros p [= <-]. apply to_sender, N.
Qed.
Lemma publish_any b s m : ~ Mem s -> broker_ok b -> broker_ok (fst (b_receive_publish b s m)) /\
  forall p, snd (b_receive_publish b s m) = Ok p ->
    (forall q, pu_ack p = Some q -> fit_for q) /\ (forall e, pu_event p = Some e -> headed (Event e)).
Proof.
  intros N [G F]. unfold b_receive_publish.
  destruct (negb _); [split; [split; assumption|discriminate]|].
  assert (K := next_ok _ G). destruct (next_id (b_idgen b)) as [g i]. destruct K as [Kg Ki]. cbn [fst snd] in Kg, Ki.
  assert (B : broker_ok (set_bidgen b g)) by (split; [exact Kg|exact F]).
  assert (A : forall q, (if truthy (sget_default "acknowledge" (VBool false) (pb_options m))
      then Some (mkRouted (Published (mkPublished (pb_request m) (PyInt i))) s) else None) = Some q -> fit_for q).
  { intros q. destruct (truthy _); [|discriminate]. intros [= <-]. apply to_sender, N. }
  cbv zeta. destruct (tget _ _) as [l|].
  - destruct (nth_error _ l) as [sub|] eqn:E; [|split; [exact B|discriminate]]. split; [exact B|]. intros p [= <-]. cbn [pu_ack pu_event].
    split; [exact A|]. intros e [= <-]. assert (S := Forall_nth _ _ _ _ F E). cbn beta in S. split; apply wf_of; assumption.
  - split; [exact B|]. intros p [= <-]. split; [exact A|discriminate].
Qed.
Lemma call_any d s m : ~ Mem s -> dealer_ok Mem d -> dealer_ok Mem (fst (d_call d s m)) /\ forall p, snd (d_call d s m) = Ok p -> fit_for p.
Proof.
  intros N H. unfold d_call. destruct (tget _ _) as [l|].
  2:{ split; [exact H|]. intros p [= <-]. apply to_sender, N. }
  destruct (nth_error _ l) as [reg|] eqn:E; [|split; [exact H|discriminate]].
  destruct H as (G & F & Q & C). assert (R := Forall_nth _ _ _ _ F E). cbn beta in R.
  cbv zeta. set (callee := match reg_registrants reg with [] => 0 | (s0, _) :: _ => s0 end). clearbody callee.
  set (rp := sget_default OPTION_RECEIVE_PROGRESS _ _). set (pr := sget_default OPTION_PROGRESS _ _).
  set (fresh := let (g, id) := next_id (d_idgen d) in (add_call (set_didgen d g) (ca_request m) id s callee pr rp, id)).
  assert (Y : dealer_ok Mem (fst fresh) /\ id_ok (snd fresh)).
  { subst fresh. assert (K := next_ok _ G). destruct (next_id (d_idgen d)) as [g i]. destruct K as [Kg Ki]. cbn [fst snd] in *. split; [|exact Ki].
    split; [exact Kg|]. split; [exact F|]. split; [apply (Forall_dset Z.eqb (asked_ok Mem)); [exact Q|intros Me; destruct (N Me)]|].
    apply (Forall_dset zz_eqb id_ok); [exact C|exact Ki]. }
  set (chosen := if truthy pr then match zzget (s, pyint_Z (ca_request m)) (d_call_ids d) with Some id => (d, id) | None => fresh end else fresh).
  assert (Z : dealer_ok Mem (fst chosen) /\ id_ok (snd chosen)).
  { subst chosen. destruct (truthy pr); [|exact Y]. destruct (zzget _ _) as [i|] eqn:D; [|exact Y]. cbn [fst snd].
    split; [split; [exact G|split; [exact F|split; [exact Q|exact C]]]|]. exact (Forall_dget _ id_ok _ _ _ C D). }
  clearbody chosen. destruct chosen as [d' i]. destruct Z as [Zd Zi]. cbn [fst snd] in *. split; [exact Zd|]. intros p [= <-] _.
  split; apply wf_of; assumption.
Qed.
Lemma yield_any d s m : dealer_ok Mem d -> dealer_ok Mem (fst (d_yield d s m)) /\ forall p, snd (d_yield d s m) = Ok p -> fit_for p.
Proof.
  intros H. unfold d_yield. destruct (zget _ (d_pending d)) as [inv|] eqn:E; [|split; [exact H|discriminate]].
  destruct (negb _); [split; [exact H|discriminate]|].
  destruct H as (G & F & Q & C). assert (Wi : asked_ok Mem inv) by exact (Forall_dget _ (asked_ok Mem) _ _ _ Q E).
  cbv zeta. destruct (_ && _).
  - split; [split; [exact G|split; [exact F|split; [exact Q|exact C]]]|]. intros p [= <-] Me. exact (Wi Me).
  - destruct (zzmem _ _).
    + split; [|intros p [= <-] Me; exact (Wi Me)]. split; [exact G|]. split; [exact F|].
      split; [apply (Forall_ddel Z.eqb (asked_ok Mem)), Q|apply (Forall_ddel zz_eqb id_ok), C].
    + split; [|discriminate]. split; [exact G|]. split; [exact F|]. split; [apply (Forall_ddel Z.eqb (asked_ok Mem)), Q|exact C].
Qed.
Lemma register_any d s m : ~ Mem s -> dealer_ok Mem d -> dealer_ok Mem (fst (d_register d s m)) /\ forall p, snd (d_register d s m) = Ok p -> fit_for p.
Proof.
  intros N H. unfold d_register. destruct (zget s (d_by_session d)) as [own|]; [|split; [exact H|discriminate]].
  destruct (tget _ _) as [l|].
  { split; [exact H|]. intros p [= <-]. apply to_sender, N. }
  destruct H as (G & F & Q & C). assert (K := next_ok _ G). destruct (next_id (d_idgen d)) as [g i]. destruct K as [Kg Ki]. cbn [fst snd] in *.
  split; [|intros p [= <-]; apply to_sender, N].
  split; [exact Kg|]. split; [|split; [exact Q|exact C]]. cbn. apply Forall_app. split; [exact F|]. apply Forall_cons; [exact Ki|constructor].
Qed.
Lemma unregister_any d s m : ~ Mem s -> dealer_ok Mem d -> dealer_ok Mem (fst (d_unregister d s m)) /\ forall p, snd (d_unregister d s m) = Ok p -> fit_for p.
Proof.
  intros N H. unfold d_unregister. destruct (zget s (d_by_session d)) as [own|]; [|split; [exact H|discriminate]].
  destruct (zget _ own) as [l|]; [|split; [exact H|discriminate]].
  destruct (nth_error (d_heap d) l) as [reg|] eqn:E; [|split; [exact H|discriminate]].
  destruct (negb _); [split; [exact H|discriminate]|]. set (reg' := mkReg _ _ _).
  assert (K : dealer_ok Mem (set_dheap d (put (d_heap d) l reg'))).
  { destruct H as (G & F & Q & C). split; [exact G|]. split; [|split; [exact Q|exact C]]. apply Forall_put; [exact F|]. exact (Forall_nth _ _ _ _ F E). }
  cbv zeta. destruct (reg_registrants reg').
  - destruct (tmem _ _); (split; [exact K|]); [intros p [= <-]; apply to_sender, N|discriminate].
  - split; [exact K|]. intros q [= <-]. apply to_sender, N.
Qed.
Lemma error_any d m : dealer_ok Mem d -> dealer_ok Mem (fst (d_error d m)) /\ forall p, snd (d_error d m) = Ok p -> fit_for p.
Proof.
  intros H. unfold d_error. destruct (negb _); [split; [exact H|discriminate]|].
  destruct (zget _ (d_pending d)) as [inv|] eqn:E; [|split; [exact H|discriminate]].
  destruct H as (G & F & Q & C). assert (Wi : asked_ok Mem inv) by exact (Forall_dget _ (asked_ok Mem) _ _ _ Q E).
  split; [|intros p [= <-] Me; split; [reflexivity|exact (Wi Me)]].
  split; [exact G|]. split; [exact F|]. split; [apply (Forall_ddel Z.eqb (asked_ok Mem)), Q|exact C].
Qed.
Lemma route_any b d s m : ~ Mem s -> broker_ok b -> dealer_ok Mem d ->
  let '(b', d', posts) := route b d s m in broker_ok b' /\ dealer_ok Mem d' /\ Forall fit_for posts.
Proof.
  intros N B D.
  destruct m; cbn [route]; try (split; [exact B|split; [exact D|constructor]]).
  - cbn [d_receive_message]. destruct (error_any d m D) as [X Y]. destruct (d_error d m) as [d' [p|e]]; cbn [fst snd] in *;
      (split; [exact B|split; [exact X|]]); [apply Forall_cons; [apply Y; reflexivity|constructor]|constructor].
  - destruct (publish_any b s m N B) as [X Y]. destruct (b_receive_publish b s m) as [b' [p|e]]; cbn [fst snd] in *;
      (split; [exact X|split; [exact D|]]); [|constructor].
    destruct (Y p eq_refl) as [Y1 Y2]. apply Forall_app. split.
    + destruct (pu_ack p) as [q|]; [apply Forall_cons; [apply Y1; reflexivity|constructor]|constructor].
    + destruct (pu_event p) as [e|]; [|constructor]. specialize (Y2 e eq_refl). induction (pu_recipients p); cbn [map]; constructor; [intros _; exact Y2|assumption].
  - cbn [b_receive_message]. destruct (subscribe_any b s m N B) as [X Y]. destruct (b_subscribe b s m) as [b' [p|e]]; cbn [fst snd] in *;
      (split; [exact X|split; [exact D|]]); [apply Forall_cons; [apply Y; reflexivity|constructor]|constructor].
  - cbn [b_receive_message]. destruct (unsubscribe_any b s m N B) as [X Y]. destruct (b_unsubscribe b s m) as [b' [p|e]]; cbn [fst snd] in *;
      (split; [exact X|split; [exact D|]]); [apply Forall_cons; [apply Y; reflexivity|constructor]|constructor].
  - cbn [d_receive_message]. destruct (call_any d s m N D) as [X Y]. destruct (d_call d s m) as [d' [p|e]]; cbn [fst snd] in *;
      (split; [exact B|split; [exact X|]]); [apply Forall_cons; [apply Y; reflexivity|constructor]|constructor].
  - cbn [d_receive_message]. destruct (register_any d s m N D) as [X Y]. destruct (d_register d s m) as [d' [p|e]]; cbn [fst snd] in *;
      (split; [exact B|split; [exact X|]]); [apply Forall_cons; [apply Y; reflexivity|constructor]|constructor].
  - cbn [d_receive_message]. destruct (unregister_any d s m N D) as [X Y]. destruct (d_unregister d s m) as [d' [p|e]]; cbn [fst snd] in *;
      (split; [exact B|split; [exact X|]]); [apply Forall_cons; [apply Y; reflexivity|constructor]|constructor].
  - cbn [d_receive_message]. destruct (yield_any d s m D) as [X Y]. destruct (d_yield d s m) as [d' [p|e]]; cbn [fst snd] in *;
      (split; [exact B|split; [exact X|]]); [apply Forall_cons; [apply Y; reflexivity|constructor]|constructor].
Qed.
End Others.

(** ** Sessions that missed messages of others *)
Definition sess_sim (x y : session) : Prop := exists C I, y = set_invocation_requests (set_call_requests x C) I /\
  (NoDup C /\ NoDup (call_requests x) /\ forall z, smem z C = true -> smem z (call_requests x) = true) /\
  (NoDup I /\ NoDup (invocation_requests x) /\ forall z, smem z (invocation_requests x) = true -> smem z I = true).
Definition below (C D : list Z) : Prop := NoDup C /\ NoDup D /\ forall z, smem z C = true -> smem z D = true.
Lemma below_add C D z : below C D -> below (sadd z C) (sadd z D).
Proof.
  intros (A & B & H). split; [apply NoDup_sadd, A|]. split; [apply NoDup_sadd, B|]. intros y. rewrite !smem_sadd. destruct (y =? z); [reflexivity|apply H].
Qed.
Lemma below_rem C D z : below C D -> below (srem z C) (srem z D).
Proof.
  intros (A & B & H). split; [apply NoDup_srem, A|]. split; [apply NoDup_srem, B|]. intros y. rewrite !smem_srem by assumption. destruct (y =? z); [discriminate|apply H].
Qed.
Lemma below_less C D z : below C D -> below (srem z C) D.
Proof.
  intros (A & B & H). split; [apply NoDup_srem, A|]. split; [exact B|]. intros y. rewrite !smem_srem by assumption. destruct (y =? z); [discriminate|apply H].
Qed.
Lemma below_skip C D z : below C D -> smem z C = false -> below C (srem z D).
Proof.
  intros (A & B & H) N. split; [exact A|]. split; [apply NoDup_srem, B|]. intros y Y. rewrite !smem_srem by assumption. rewrite (H _ Y).
  destruct (Z.eqb_spec y z) as [->|]; [congruence|reflexivity].
Qed.
Lemma below_more C D z : below C D -> below C (sadd z D).
Proof.
  intros (A & B & H). split; [exact A|]. split; [apply NoDup_sadd, B|]. intros y Y. rewrite smem_sadd, (H _ Y). apply orb_true_r.
Qed.
Lemma below_mem C D z : below C D -> smem z C = true -> smem z D = true.
Proof. intros (_ & _ & H). apply H. Qed.
Lemma sim_intro x y C I : y = set_invocation_requests (set_call_requests x C) I -> below C (call_requests x) -> below (invocation_requests x) I -> sess_sim x y.
Proof. intros E (A & B & D) (F & G & H). exists C, I. auto. Qed.
Lemma sim_elim x y : sess_sim x y -> exists C I, y = set_invocation_requests (set_call_requests x C) I /\ below C (call_requests x) /\ below (invocation_requests x) I.
Proof. intros (C & I & E & (A & B & D) & (F & G & H)). exists C, I. repeat split; auto. Qed.
Lemma sess_sim_init : sess_sim session_init session_init.
Proof. apply (sim_intro _ _ [] []); [reflexivity| |]; (split; [constructor|split; [constructor|auto]]). Qed.

Lemma send_sim x y m : sess_sim x y ->
  match snd (send_track x m) with
  | Ok _ => snd (send_track y m) = Ok tt /\ sess_sim (fst (send_track x m)) (fst (send_track y m))
  | Raise _ => fst (send_track x m) = x
  end.
Proof.
  intros S. apply sim_elim in S. destruct S as (C & I & -> & A & B). destruct x as [c rr rg iv ur pu su ss us]. cbn in A, B.
  destruct m; cbn -[sadd srem smem zset]; try reflexivity.
  all: try (split; [reflexivity|]; eapply sim_intro; [reflexivity|first [exact A|apply below_add, A]|exact B]).
  - destruct (negb _); cbn -[sadd srem smem zset]; [reflexivity|]. split; [reflexivity|]. eapply sim_intro; [reflexivity|exact A|apply below_rem, B].
  - destruct (truthy _); cbn -[sadd srem smem zset]; (split; [reflexivity|]); (eapply sim_intro; [reflexivity|exact A|exact B]).
  - destruct (smem _ iv) eqn:E; cbn -[sadd srem smem zset]; [|reflexivity]. rewrite (below_mem _ _ _ B E). cbn -[sadd srem smem zset]. split; [reflexivity|]. eapply sim_intro; [reflexivity|exact A|apply below_rem, B].
Qed.
Lemma lost_sim x y m : headed m -> sess_sim x y -> sess_sim x (fst (receive_message y m)).
Proof.
  intros H S. apply sim_elim in S. destruct S as (C & I & -> & A & B). destruct x as [c rr rg iv ur pu su ss us]. cbn in A, B.
  destruct m; try contradiction; cbn [headed] in H; cbn -[sadd srem smem zset zdel zget zmem].
  - destruct H as [H _]. unfold receive_error. rewrite H. cbn -[sadd srem smem zset zdel zget zmem]. destruct (smem _ _); cbn -[sadd srem smem zset zdel zget zmem]; (eapply sim_intro; [reflexivity| |exact B]); [apply below_less, A|exact A].
  - destruct (smem _ _); cbn -[sadd srem smem zset zdel zget zmem]; (eapply sim_intro; [reflexivity|exact A|exact B]).
  - destruct (smem _ _); cbn -[sadd srem smem zset zdel zget zmem]; (eapply sim_intro; [reflexivity| |exact B]); [apply below_less, A|exact A].
  - destruct (smem _ _); cbn -[sadd srem smem zset zdel zget zmem]; (eapply sim_intro; [reflexivity|exact A|]); [apply below_more, B|exact B].
Qed.
Lemma recv_sim x y m m' : same_head m m' -> sess_sim x y ->
  sess_sim (fst (receive_message x m')) (fst (receive_message y m)) /\ (snd (receive_message y m) = Ok m -> snd (receive_message x m') = Ok m').
Proof.
  intros H S. apply sim_elim in S. destruct S as (C & I & -> & A & B). destruct x as [c rr rg iv ur pu su ss us]. cbn in A, B.
  assert (R : sess_sim (mkSession c rr rg iv ur pu su ss us) (mkSession C rr rg I ur pu su ss us)) by (eapply sim_intro; [reflexivity|exact A|exact B]).
  assert (R' : forall a b rr rg ur pu su ss us, below C a -> below b I -> sess_sim (mkSession a rr rg b ur pu su ss us) (mkSession C rr rg I ur pu su ss us)) by (intros; eapply sim_intro; [reflexivity|assumption|assumption]).
  assert (R2 : forall a z rr rg ur pu su ss us, below (srem z C) a -> sess_sim (mkSession a rr rg iv ur pu su ss us) (mkSession (srem z C) rr rg I ur pu su ss us)) by (intros; eapply sim_intro; [reflexivity|assumption|assumption]).
  assert (R3 : forall b z rr rg ur pu su ss us, below b (sadd z I) -> sess_sim (mkSession c rr rg b ur pu su ss us) (mkSession C rr rg (sadd z I) ur pu su ss us)) by (intros; eapply sim_intro; [reflexivity|assumption|assumption]).
  destruct m; try (cbn [same_head] in H; destruct m'; try discriminate H; injection H as ->); try (destruct m'; cbn in H; try discriminate H); cbn -[sadd srem smem zset zdel zget zmem receive_error].
  all: try (split; [exact R|discriminate]).
  all: try (split; [exact R|reflexivity]).
  all: try (destruct (smem _ _); cbn -[sadd srem smem zset zdel zget zmem]; (split; [first [exact R|eapply sim_intro; [reflexivity|exact A|exact B]]|first [reflexivity|discriminate]])).
  all: try (destruct (zget _ _); [|cbn -[sadd srem smem zset zdel zget zmem]; split; [first [exact R|eapply sim_intro; [reflexivity|exact A|exact B]]|discriminate]]; destruct (smem _ _); cbn -[sadd srem smem zset zdel zget zmem]; (split; [first [exact R|eapply sim_intro; [reflexivity|exact A|exact B]]|first [reflexivity|discriminate]])).
  - destruct H as [H1 H2]. unfold receive_error. rewrite H1, H2. cbn [call_requests set_call_requests set_invocation_requests register_requests unregister_requests subscribe_requests unsubscribe_requests publish_requests].
    destruct (_ =? T_CALL).
    { destruct (smem _ C) eqn:E; cbn -[sadd srem smem zset zdel zget zmem].
      - rewrite (below_mem _ _ _ A E). cbn -[sadd srem smem zset zdel zget zmem]. split; [apply R2, below_rem, A|reflexivity].
      - destruct (smem _ c); cbn -[sadd srem smem zset zdel zget zmem]; (split; [|discriminate]); [apply R'; [apply below_skip; assumption|exact B]|exact R]. }
    destruct (_ =? T_REGISTER); [destruct (smem _ _); cbn -[sadd srem smem zset zdel zget zmem]; (split; [first [exact R|eapply sim_intro; [reflexivity|exact A|exact B]]|first [reflexivity|discriminate]])|].
    destruct (_ =? T_UNREGISTER); [destruct (zmem _ _); cbn -[sadd srem smem zset zdel zget zmem]; (split; [first [exact R|eapply sim_intro; [reflexivity|exact A|exact B]]|first [reflexivity|discriminate]])|].
    destruct (_ =? T_SUBSCRIBE); [destruct (smem _ _); cbn -[sadd srem smem zset zdel zget zmem]; (split; [first [exact R|eapply sim_intro; [reflexivity|exact A|exact B]]|first [reflexivity|discriminate]])|].
    destruct (_ =? T_UNSUBSCRIBE); [destruct (zmem _ _); cbn -[sadd srem smem zset zdel zget zmem]; (split; [first [exact R|eapply sim_intro; [reflexivity|exact A|exact B]]|first [reflexivity|discriminate]])|].
    destruct (_ =? T_PUBLISH); [destruct (smem _ _); cbn -[sadd srem smem zset zdel zget zmem]; (split; [first [exact R|eapply sim_intro; [reflexivity|exact A|exact B]]|first [reflexivity|discriminate]])|].
    cbn. split; [first [exact R|eapply sim_intro; [reflexivity|exact A|exact B]]|discriminate].
  - destruct H as [H1 H2]. rewrite H1. destruct (smem _ _); cbn -[sadd srem smem zset zdel zget zmem]; (split; [first [exact R|eapply sim_intro; [reflexivity|exact A|exact B]]|first [reflexivity|discriminate]]).
  - rewrite H. destruct (smem _ C) eqn:E; cbn -[sadd srem smem zset zdel zget zmem].
    + rewrite (below_mem _ _ _ A E). cbn -[sadd srem smem zset zdel zget zmem]. split; [apply R2, below_rem, A|reflexivity].
    + destruct (smem _ c); cbn -[sadd srem smem zset zdel zget zmem]; (split; [|discriminate]); [apply R'; [apply below_skip; assumption|exact B]|exact R].
  - destruct H as [H1 H2]. rewrite H1, H2. destruct (smem _ _); cbn -[sadd srem smem zset zdel zget zmem]; (split; [|first [reflexivity|discriminate]]); [apply R3, below_add, B|exact R].
Qed.
