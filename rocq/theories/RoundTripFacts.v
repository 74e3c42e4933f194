(** * RoundTripFacts: marshal/parse round trips (lemmas for C01, C06, C08, C14). *)
From Coq Require Import String Ascii List ZArith Bool Lia.
From Verif Require Import PyBase Messages Validate Parse SpecSchema SchemaFacts.
Import ListNotations.
Local Open Scope string_scope.
Local Open Scope Z_scope.
Local Open Scope list_scope.

Definition acceptable_id (i : pyint) : Prop := fits_id (pyint_val i).

Lemma wf_id_acceptable i : wf_id i -> acceptable_id i.
Proof. intros (z & -> & Hz). left. exists z. auto. Qed.

Lemma wf_with_impl (P Q : pyint -> Prop) m : (forall i, P i -> Q i) -> wf_message_with P m -> wf_message_with Q m.
Proof. intros H. destruct m; cbn; intuition. Qed.

Lemma pyint_fits_int i : fits KInt (pyint_val i).
Proof. destruct i; cbn; eauto. Qed.

Lemma wf_roles_fits r d : wf_roles r -> sget "roles" d = Some (VDict r) -> fits_roles d.
Proof. intros [H1 H2] H. exists r. auto. Qed.

Ltac entry_absent := left; reflexivity.
Ltac entry_present := right; right; eexists; split; [reflexivity|eexists; reflexivity].

Lemma hello_marshal_fits m : wf_roles (he_roles m) ->
  forall d, nth_error (marshal_hello m) 2 = Some (VDict d) -> fits KHelloDetails (VDict d).
Proof.
  intros Hr d Hd. destruct m as [re ro ai am ax]. cbn [he_roles he_realm he_authid he_authmethods he_authextra] in *.
  exists d. split; [reflexivity|].
  destruct ai, am, ax; cbn in Hd; injection Hd as <-;
    (split; [eapply wf_roles_fits; [eassumption|reflexivity]|]);
    repeat split; (entry_absent || entry_present).
Qed.

Lemma welcome_marshal_fits m : wf_roles (we_roles m) ->
  forall d, nth_error (marshal_welcome m) 2 = Some (VDict d) -> fits KWelcomeDetails (VDict d).
Proof.
  intros Hr d Hd. destruct m as [se ro ai ar am ax].
  cbn [we_session we_roles we_authid we_authrole we_authmethod we_authextra] in *.
  exists d. split; [reflexivity|].
  destruct ai, ar, am; cbn in Hd; injection Hd as <-;
    (split; [eapply wf_roles_fits; [eassumption|reflexivity]|]);
    repeat split; (entry_absent || entry_present).
Qed.

Ltac fits_pos := first
  [ assumption
  | apply pyint_fits_int
  | eexists; reflexivity ].

Lemma marshal_conforms m : wf_message_with acceptable_id m -> conforms (class_of m) (marshal m).
Proof.
  intros Hwf. destruct m; cbn [wf_message_with] in Hwf; unfold acceptable_id in Hwf.
  1:{ exists (VInt 1), (tl (marshal_hello m)), []. rewrite app_nil_r.
      split; [reflexivity|]. split; [reflexivity|]. split; [|split; [cbn; lia|constructor]].
      constructor; [eexists; reflexivity|]. constructor; [|constructor].
      eapply hello_marshal_fits; [eassumption|reflexivity]. }
  1:{ destruct Hwf as [Hi Hr]. exists (VInt 2), (tl (marshal_welcome m)), []. rewrite app_nil_r.
      split; [reflexivity|]. split; [reflexivity|]. split; [|split; [cbn; lia|constructor]].
      constructor; [exact Hi|]. constructor; [|constructor].
      eapply welcome_marshal_fits; [eassumption|reflexivity]. }
  all: cbn [marshal class_of];
    try match type of Hwf with _ /\ _ => destruct Hwf as [? ?] end;
    unfold conforms; cbn [schema_of sc_req sc_opt sc_code args_kwargs map snd].
  all: cbv [marshal_abort marshal_challenge marshal_authenticate marshal_goodbye marshal_error marshal_publish
            marshal_published marshal_subscribe marshal_subscribed marshal_unsubscribe marshal_unsubscribed
            marshal_event marshal_call marshal_cancel marshal_result marshal_register marshal_registered
            marshal_unregister marshal_unregistered marshal_invocation marshal_interrupt marshal_yield].
  all: try match goal with
  | |- context [(?t :: ?r) ++ args_kwargs_tail ?a ?k] =>
      exists t, r, (args_kwargs_tail a k); split; [reflexivity|]; split; [reflexivity|];
      split; [repeat (apply Forall2_cons || apply Forall2_nil); fits_pos|];
      destruct a, k; (split; [cbn; lia|]); cbn;
      repeat (apply Forall2_cons || apply Forall2_nil); eexists; reflexivity
  | |- exists t req opt, ?h :: ?r = _ /\ _ =>
      exists h, r, []; rewrite app_nil_r; split; [reflexivity|]; split; [reflexivity|];
      split; [repeat (apply Forall2_cons || apply Forall2_nil); fits_pos|];
      split; [cbn; lia|constructor]
  end.
Qed.

Lemma expected_marshal m : expected_attrs (class_of m) (marshal m) = attrs (normalise m).
Proof.
  destruct m as [[? ? a b c]|[? ? a b c e]|[]|[]|[]|[]|[? ? ? a k ?]|[? ? a k ?]|[]|[]|[]|[]|[]|[? ? a k ?]
    |[? ? a k ? ?]|[]|[? a k ? ?]|[]|[]|[]|[]|[? ? a k ? ?]|[]|[? a k ? ?]];
  try reflexivity; try (destruct a, k; reflexivity); destruct a, b, c; reflexivity.
Qed.

Lemma normalise_class m : class_of (normalise m) = class_of m.
Proof. destruct m; reflexivity. Qed.
Lemma normalise_payload m : payload_of (normalise m) = no_payload.
Proof. destruct m; reflexivity. Qed.

Lemma marshal_head m : exists r, marshal m = VInt (sc_code (schema_of (class_of m))) :: r.
Proof. destruct m; cbn; eexists; reflexivity. Qed.

Lemma round_trip_gen m : wf_message_with acceptable_id m -> to_message (VList (marshal m)) = Ok (normalise m).
Proof.
  intros Hwf. pose proof (marshal_conforms m Hwf) as Hc.
  destruct (read_conforms _ _ Hc) as (m' & Hm & Hcl & Ha & Hp).
  destruct (marshal_head m) as [r Hr].
  rewrite (to_message_parse (class_of m) _ _ r (PyInt (sc_code (schema_of (class_of m)))) Hr)
    by reflexivity.
  rewrite Hm. f_equal. apply attrs_inj.
  - rewrite normalise_class. exact Hcl.
  - exact Hp.
  - apply normalise_payload.
  - rewrite Ha. apply expected_marshal.
Qed.

Lemma round_trip m : wf_message m -> to_message (VList (marshal m)) = Ok (normalise m).
Proof.
  intros H. apply round_trip_gen. eapply wf_with_impl; [|exact H]. exact wf_id_acceptable.
Qed.

(** ** Re-marshalling *)
Definition filtered_class (c : mclass) : bool :=
  match c with CHello | CWelcome | CAbort => true | _ => false end.

Lemma remarshal v m : to_message v = Ok m -> filtered_class (class_of m) = false ->
  exists h r, v = VList (h :: r) /\ marshal m = VInt (message_TYPE m) :: r
              /\ py_eq_int h (message_TYPE m) = true.
Proof.
  intros H Hf. destruct (to_message_ok _ _ H) as (h & r & i & -> & Hi & Hc & Hp).
  exists h, r. split; [reflexivity|].
  split; [|rewrite (py_eq_as_int _ _ _ Hi), message_TYPE_code; apply Z.eqb_eq; exact Hc].
  destruct (parse_reads _ _ _ Hp) as (_ & Ha & Hb).
  assert (Hcf : conforms (class_of m) (h :: r)) by (apply parse_conforms_iff; eauto).
  clear H Hp Hc Hi i. destruct Hcf as (t & req & opt & Hl & _ & Hr & Hlo & Ho).
  injection Hl as <- ->.
  destruct m as [[]|[]|[]|[]|[]|[]|[]|[]|[]|[]|[]|[]|[]|[]|[]|[]|[]|[]|[]|[]|[]|[]|[]|[]];
  try discriminate Hf; clear Hf; cbn in Hb; subst;
  cbn [class_of schema_of sc_req sc_opt args_kwargs map snd length] in *;
  (destruct opt as [|o1 opt]; [|try (cbn in Hlo; lia)]);
  try (destruct opt as [|o2 opt]); try (destruct opt as [|o3 opt]); try (exfalso; cbn in Hlo; lia);
  cbn [length firstn] in *; inv_forall2;
  cbn in Ha; injection Ha; clear Ha; intros;
  repeat match goal with
  | H : olist ?a = VNone |- _ => destruct a; [discriminate H|clear H]
  | H : odict ?a = VNone |- _ => destruct a; [discriminate H|clear H]
  | H : fits KList _ |- _ => destruct H as (? & ->)
  | H : fits KDict _ |- _ => destruct H as (? & ->)
  end;
  repeat match goal with
  | H : olist ?a = VList _ |- _ => destruct a; [injection H as ->|discriminate H]
  | H : odict ?a = VDict _ |- _ => destruct a; [injection H as ->|discriminate H]
  end;
  repeat match goal with H : VDict _ = VDict _ |- _ => injection H; clear H; intros end;
  subst; reflexivity.
Qed.

(** A parsed message is stable under marshal and parse. *)
Lemma parsed_wf v m : to_message v = Ok m -> wf_message_with acceptable_id m.
Proof.
  intros H. destruct (to_message_ok _ _ H) as (h & r & i & -> & Hi & Hc & Hp).
  destruct (parse_reads _ _ _ Hp) as (_ & Ha & _).
  assert (Hcf : conforms (class_of m) (h :: r)) by (apply parse_conforms_iff; eauto).
  clear H Hp Hc Hi i. destruct Hcf as (t & req & opt & Hl & _ & Hr & Hlo & Ho). injection Hl as <- ->.
  destruct m as [[]|[]|[]|[]|[]|[]|[]|[]|[]|[]|[]|[]|[]|[]|[]|[]|[]|[]|[]|[]|[]|[]|[]|[]];
  cbn [class_of schema_of sc_req sc_opt args_kwargs map snd] in *; inv_forall2; try exact I;
  cbn [wf_message_with]; unfold acceptable_id.
  1:{ match goal with H : fits KHelloDetails _ |- _ => destruct H as (d & -> & (r & Er & Hr) & _) end.
      cbn in Ha. unfold entry in Ha. rewrite Er in Ha. injection Ha. intros. subst. exact Hr. }
  1:{ match goal with H : fits KWelcomeDetails _ |- _ => destruct H as (d & -> & (r & Er & Hr) & _) end.
      cbn in Ha. unfold entry in Ha. rewrite Er in Ha. injection Ha. intros. subst. split; assumption. }
  all: destruct opt as [|o1 [|o2 opt]]; cbn in Ha; injection Ha; clear Ha; intros; subst;
    try assumption; split; assumption.
Qed.

Lemma parsed_payload v m : to_message v = Ok m -> payload_of m = no_payload.
Proof.
  intros H. destruct (to_message_ok _ _ H) as (h & r & i & -> & Hi & Hc & Hp). eapply parse_reads; eauto.
Qed.

Lemma parsed_normal v m : to_message v = Ok m -> class_of m <> CAbort -> normalise m = m.
Proof.
  intros H Hab. pose proof (parsed_payload _ _ H) as Hb.
  destruct (to_message_ok _ _ H) as (h & r & i & -> & Hi & Hc & Hp).
  destruct (parse_reads _ _ _ Hp) as (_ & Ha & _).
  assert (Hcf : conforms (class_of m) (h :: r)) by (apply parse_conforms_iff; eauto).
  clear H Hp Hc Hi i. destruct Hcf as (t & req & opt & Hl & _ & Hr & Hlo & Ho). injection Hl as <- ->.
  destruct m as [[]|[]|[]|[]|[]|[]|[]|[]|[]|[]|[]|[]|[]|[]|[]|[]|[]|[]|[]|[]|[]|[]|[]|[]];
  try reflexivity; try (exfalso; apply Hab; reflexivity); cbn in Hb; subst;
  cbn [class_of schema_of sc_req sc_opt args_kwargs map snd] in *; inv_forall2;
  destruct opt as [|o1 [|o2 opt]]; cbn [length firstn] in *; inv_forall2; inv_fits;
  cbn in Ha; injection Ha; clear Ha; intros;
  repeat match goal with
  | H : olist ?a = VNone |- _ => destruct a; [discriminate H|clear H]
  | H : odict ?a = VNone |- _ => destruct a; [discriminate H|clear H]
  | H : olist ?a = VList _ |- _ => destruct a; [clear H|discriminate H]
  | H : odict ?a = VDict _ |- _ => destruct a; [clear H|discriminate H]
  end; try reflexivity;
  match goal with |- context [norm_args _ ?k] => destruct k; reflexivity | _ => idtac end.
Qed.

Lemma parse_stable v m : to_message v = Ok m -> class_of m <> CAbort -> to_message (VList (marshal m)) = Ok m.
Proof.
  intros H Hab. rewrite (round_trip_gen m (parsed_wf _ _ H)). f_equal. eapply parsed_normal; eauto.
Qed.

(** ** Statements proved for the property file *)
Definition is_int (v : val) : Prop := (exists z, v = VInt z) \/ (exists b, v = VBool b).

Lemma as_int_none v : as_int v = None <-> ~ is_int v.
Proof.
  unfold is_int. destruct v; cbn; split; intros H; try reflexivity; try discriminate;
    try (intros [[? ?]|[? ?]]; discriminate); exfalso; apply H; eauto.
Qed.
Lemma as_int_some v : is_int v -> exists i, as_int v = Some i.
Proof. intros [[z ->]|[b ->]]; eexists; reflexivity. Qed.

Lemma exception_discipline v :
  (to_message v = Raise IndexError <-> v = VList []) /\
  ((exists s, to_message v = Raise (TypeError s)) <->
     (forall l, v <> VList l) \/ exists h r, v = VList (h :: r) /\ ~ is_int h) /\
  (forall e, to_message v = Raise e -> e = IndexError \/ (exists s, e = TypeError s) \/
     (exists msgs, e = ValueError msgs /\ msgs <> [])).
Proof.
  destruct v; try (split; [split; discriminate|split; [split; [left; discriminate|intros _; eexists; reflexivity]
    |intros e H; injection H as <-; eauto]]).
  rewrite to_message_list. destruct l as [|h r].
  - split; [split; reflexivity|]. split.
    + split; [intros [s H]; discriminate|]. intros [H|(h & r & H & _)]; [|discriminate].
      exfalso. eapply H. reflexivity.
    + intros e H. injection H as <-. auto.
  - destruct (as_int h) as [i|] eqn:Ei.
    + assert (Hn : ~ ((forall l, VList (h :: r) <> VList l) \/
                     (exists h0 r0, VList (h :: r) = VList (h0 :: r0) /\ ~ is_int h0))).
      { intros [H|(h0 & r0 & H & H0)]; [eapply H; reflexivity|]. injection H as <- <-.
        apply as_int_none in H0. congruence. }
      destruct (class_of_code (pyint_Z i)) as [c|].
      * assert (HR : forall e, parse_of c (h :: r) = Raise e -> exists msgs, e = ValueError msgs /\ msgs <> [])
          by (intros e; apply parse_raises).
        split; [split; [|discriminate]; intros H; apply HR in H; destruct H as (? & H & _); discriminate|].
        split; [split; [|intros H; contradiction]; intros [s H]; apply HR in H; destruct H as (? & H & _); discriminate|].
        intros e H. right. right. auto.
      * split; [split; discriminate|]. split; [split; [intros [s H]; discriminate|intros H; contradiction]|].
        intros e H. injection H as <-. right. right. eexists. split; [reflexivity|discriminate].
    + split; [split; discriminate|]. split.
      * split; [|intros _; eexists; reflexivity]. intros _. right. exists h, r. split; [reflexivity|].
        apply as_int_none. exact Ei.
      * intros e H. injection H as <-. eauto.
Qed.

Lemma dispatch v m : to_message v = Ok m ->
  exists h r, v = VList (h :: r) /\ py_eq_int h (message_TYPE m) = true.
Proof.
  intros H. destruct (to_message_ok _ _ H) as (h & r & i & -> & Hi & Hc & _).
  exists h, r. split; [reflexivity|]. rewrite (py_eq_as_int _ _ _ Hi), message_TYPE_code. apply Z.eqb_eq. exact Hc.
Qed.

Lemma dispatch_unknown h r : is_int h -> (forall c, py_eq_int h (sc_code (schema_of c)) = false) ->
  to_message (VList (h :: r)) = Raise (ValueError ["unknown message type"]).
Proof.
  intros Hi Hn. rewrite to_message_list. destruct (as_int_some _ Hi) as [i Ei]. rewrite Ei.
  destruct (class_of_code (pyint_Z i)) as [c|] eqn:E; [|reflexivity].
  apply class_of_code_some in E. specialize (Hn c). rewrite (py_eq_as_int _ _ _ Ei) in Hn.
  apply Z.eqb_neq in Hn. congruence.
Qed.

Lemma codes_distinct c1 c2 : sc_code (schema_of c1) = sc_code (schema_of c2) -> c1 = c2.
Proof.
  intros H. apply class_of_code_some in H. rewrite (proj2 (class_of_code_some _ c2) eq_refl) in H. congruence.
Qed.

Lemma to_message_is_parse h r c : is_int h -> py_eq_int h (sc_code (schema_of c)) = true ->
  to_message (VList (h :: r)) = parse_of c (h :: r).
Proof.
  intros Hi He. destruct (as_int_some _ Hi) as [i Ei].
  rewrite (py_eq_as_int _ _ _ Ei) in He. apply Z.eqb_eq in He. eapply to_message_parse; eauto.
Qed.

Lemma violations_sorted c l : Sorted.StronglySorted le (map violation_index (violations c l)).
Proof. apply violations_from_sorted. Qed.

Lemma violations_conforms c l : length_ok c l -> head_ok c l -> (violations c l = [] <-> conforms c l).
Proof. intros HL HH. rewrite conforms_iff. tauto. Qed.

(** An accepted id position. *)
Lemma accepted_ids c l m i a : parse_of c l = Ok m ->
  nth_error (sc_req (schema_of c)) i = Some (a, KId) ->
  exists v, nth_error l (S i) = Some v /\ ((exists z, v = VInt z /\ 1 <= z <= 2 ^ 53) \/ v = VBool true).
Proof.
  intros H Hi. assert (Hc : conforms c l) by (apply parse_conforms_iff; eauto).
  destruct Hc as (t & req & opt & -> & _ & Hr & _). cbn [nth_error].
  remember (sc_req (schema_of c)) as R. clear HeqR H.
  revert i req Hr Hi. induction R as [|[a' k] R IH]; intros [|i] req Hr Hi; try discriminate; inversion Hr; subst.
  - cbn in Hi. injection Hi as -> ->. exists y. split; [reflexivity|assumption].
  - cbn in Hi. cbn [app nth_error]. eapply IH; eauto.
Qed.

Lemma abort_args_lost : exists m m',
  wf_message (Abort m) /\ to_message (VList (marshal (Abort m))) = Ok (Abort m') /\
  ab_args m <> ab_args m' /\ ab_kwargs m <> ab_kwargs m'.
Proof.
  exists (mkAbort [] "r" (Some [VStr "why"]) (Some [(VStr "k", VNone)])), (mkAbort [] "r" None None).
  repeat split; discriminate.
Qed.

Lemma sget_sset_same k v d : sget k (sset k v d) = Some v.
Proof.
  induction d as [|[k' v'] d IH]; cbn [sset sget]; [rewrite String.eqb_refl; reflexivity|].
  destruct k'; cbn [sget]; try exact IH.
  destruct (String.eqb k s) eqn:E; cbn [sget]; rewrite E; [reflexivity|exact IH].
Qed.

(** The option/details dict of the four payload-carrying classes. *)
Definition options_of (m : message) : dict :=
  match m with
  | Call m => ca_options m | Result m => re_details m | Invocation m => iv_details m | Yield m => yi_options m
  | _ => []
  end.
Definition carries_payload (m : message) : bool :=
  match m with Call _ | Result _ | Invocation _ | Yield _ => true | _ => false end.

Lemma payload_lost : exists m1 m2,
  wf_message m1 /\ wf_message m2 /\ carries_payload m1 = true /\ marshal m1 = marshal m2 /\
  bp_payload (payload_of m1) <> bp_payload (payload_of m2) /\
  (forall m', to_message (VList (marshal m1)) = Ok m' -> bp_payload (payload_of m') = None).
Proof.
  exists (Call (mkCall (PyInt 1) "p" None None [] (mkBin (Some 1) (Some ["a"%char]) true))),
         (Call (mkCall (PyInt 1) "p" None None [] (mkBin (Some 1) (Some ["b"%char]) true))).
  repeat split; try (exists 1; split; [reflexivity|lia]); try discriminate.
  intros m' H. apply parsed_payload in H. rewrite H. reflexivity.
Qed.

Lemma payload_serializer_kept m s : wf_message m -> carries_payload m = true ->
  bp_serializer (payload_of m) = Some s ->
  exists m', to_message (VList (marshal m)) = Ok m' /\ class_of m' = class_of m
             /\ sget "x_payload_serializer" (options_of m') = Some (VInt s)
             /\ payload_of m' = no_payload.
Proof.
  intros Hwf Hc Hs. exists (normalise m).
  split; [apply round_trip; exact Hwf|]. split; [apply normalise_class|]. split; [|apply normalise_payload].
  destruct m; try discriminate Hc; cbn in Hs;
    cbn [normalise options_of ca_options re_details iv_details yi_options];
    unfold ca_options, re_details, iv_details, yi_options, with_serializer, norm_opts; cbn;
    rewrite Hs; apply sget_sset_same.
Qed.
