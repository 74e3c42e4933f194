(** * TextLimitFacts: the limit on the text of ints changes only the text of errors (C138). *)
From Coq Require Import String Ascii List ZArith Bool Lia.
From Verif Require Import PyBase Messages Validate Parse SpecSchema TextLimit.
Import ListNotations.
Local Open Scope Z_scope.

(** [y] is [x], or fails where [x] reports an error and something mentioned is not writable. *)
Definition lim (big : Prop) (x y : vres) : Prop := y = x \/ (y = Raise too_long /\ big /\ exists f e es, x = Ok (f, e :: es)).
Definition limits (v vl : validator) : Prop := forall msg i f n, lim (forallb writable msg = false) (v msg i f n) (vl msg i f n).

Lemma at_writable msg i v : msg_at msg i = Ok v -> writable v = false -> forallb writable msg = false.
Proof.
  unfold msg_at. destruct (nth_error msg i) as [w|] eqn:E; intros H W; [|discriminate H]. injection H as ->. apply nth_error_In in E.
  destruct (forallb writable msg) eqn:F; [|reflexivity]. rewrite forallb_forall in F. rewrite (F _ E) in W. discriminate W.
Qed.
Lemma id_limits set : limits (validate_at validate_id_or_raise set) (validate_at_lim set).
Proof.
  intros msg i f n. unfold validate_at, validate_at_lim. destruct (msg_at msg i) as [v|e] eqn:E; cbn [bind]; [|left; reflexivity].
  unfold validate_id_lim, validate_id_or_raise. destruct (validate_int_or_raise v i n) as [k|e]; cbn [bind]; [|left; reflexivity].
  destruct (_ || _); cbn [bind]; [|left; reflexivity]. unfold write. destruct (writable v) eqn:W; cbn [bind]; [left; reflexivity|].
  right. split; [reflexivity|]. split; [exact (at_writable _ _ _ E W)|]. eauto.
Qed.
Lemma refl_limits v : limits v v. Proof. intros msg i f n. left. reflexivity. Qed.

Definition dlim (d : dict) (x : Fields * list string) (y : vres) : Prop :=
  y = Ok x \/ (y = Raise too_long /\ writable (VDict d) = false /\ exists f e es, x = (f, e :: es)).
Lemma bad_role_in r k : first_bad_role r = Some k -> exists v, In (k, v) r.
Proof.
  induction r as [|[a b] r IH]; cbn [first_bad_role In]; [discriminate|]. destruct a; try (intros H; injection H as <-; eauto; fail).
  destruct (existsb (String.eqb s) allowed_roles); [intros H; destruct (IH H) as [v V]; eauto|intros H; injection H as <-; eauto].
Qed.
Lemma sget_in s d v : sget s d = Some v -> exists k, In (k, v) d.
Proof.
  induction d as [|[a b] d IH]; cbn [sget In]; [discriminate|]. destruct a; try (intros H; destruct (IH H); eauto; fail).
  destruct (String.eqb _ _); [intros H; injection H as <-; eauto|intros H; destruct (IH H); eauto].
Qed.
Lemma writable_dict d k v : In (k, v) d -> writable (VDict d) = true -> writable k = true /\ writable v = true.
Proof. intros I W. cbn [writable] in W. rewrite forallb_forall in W. apply andb_prop. exact (W _ I). Qed.
Lemma roles_limits d i f n : dlim d (validate_roles d i f n) (validate_roles_lim d i f n).
Proof.
  unfold validate_roles_lim, validate_roles. destruct (as_dict (sget_default "roles" VNone d)) as [r|] eqn:A; [|left; reflexivity].
  destruct (first_bad_role r) as [k|] eqn:B; [|left; reflexivity]. unfold write. destruct (writable k) eqn:W; cbn [bind]; [left; reflexivity|].
  right. split; [reflexivity|]. split.
  - destruct (writable (VDict d)) eqn:D; [|reflexivity]. destruct (bad_role_in _ _ B) as [v V].
    unfold sget_default in A. destruct (sget "roles" d) as [x|] eqn:S; [|discriminate A]. destruct x; try discriminate A. cbn in A. injection A as <-.
    destruct (sget_in _ _ _ S) as [k' K]. destruct (writable_dict _ _ _ K D) as [_ X]. destruct (writable_dict _ _ _ V X) as [Y _]. congruence.
  - destruct r; [discriminate B|]. eauto.
Qed.
Lemma run_details_limits d : forall vs vls i f n,
  Forall2 (fun v vl => forall i f n, dlim d (v d i f n) (vl d i f n)) vs vls -> dlim d (run_details vs d i f n) (run_details_lim vls d i f n).
Proof.
  intros vs vls i f n F. revert f. induction F as [|v vl vs vls H _ IH]; intros f; [left; reflexivity|]. cbn [run_details run_details_lim].
  destruct (H i f n) as [E|(E & B & f' & e & es & X)]; rewrite E; cbn [bind].
  - destruct (v d i f n) as [f1 e1]. destruct (IH f1) as [E2|(E2 & B & f' & e & es & X)]; rewrite E2; cbn [bind].
    + destruct (run_details vs d i f1 n). left. reflexivity.
    + rewrite X. right. split; [reflexivity|]. split; [exact B|]. destruct e1; cbn; eauto.
  - rewrite X. right. split; [reflexivity|]. split; [exact B|]. destruct (run_details vs d i f' n). cbn. eauto.
Qed.
Lemma details_limits vs vls : (forall d, Forall2 (fun v vl => forall i f n, dlim d (v d i f n) (vl d i f n)) vs vls) ->
  limits (validate_details_with vs) (validate_details_lim vls).
Proof.
  intros F msg i f n. unfold validate_details_with, validate_details_lim. destruct (msg_at msg i) as [v|e] eqn:E; cbn [bind]; [|left; reflexivity].
  unfold validate_dict_or_raise. destruct (as_dict v) as [d|] eqn:A; [|left; reflexivity].
  destruct (run_details_limits d vs vls i f n (F d)) as [R|(R & B & f' & e & es & X)]; rewrite R; cbn [bind].
  - destruct (run_details vs d i f n). left. reflexivity.
  - rewrite X. right. split; [reflexivity|]. split; [|eauto]. destruct v; try discriminate A. cbn in A. injection A as ->. exact (at_writable _ _ _ E B).
Qed.
Lemma hello_limits : limits validate_hello_details validate_hello_details_lim.
Proof. apply details_limits. intros d. repeat (apply Forall2_cons; [intros; first [apply roles_limits|left; reflexivity]|]). apply Forall2_nil. Qed.
Lemma welcome_limits : limits validate_welcome_details validate_welcome_details_lim.
Proof. apply details_limits. intros d. repeat (apply Forall2_cons; [intros; first [apply roles_limits|left; reflexivity]|]). apply Forall2_nil. Qed.

Definition spec_limits (s sl : list (nat * validator)) : Prop := Forall2 (fun a b => fst a = fst b /\ limits (snd a) (snd b)) s sl.
Lemma run_spec_limits msg n s sl : spec_limits s sl -> forall f,
  run_spec sl msg f n = run_spec s msg f n \/
  (run_spec sl msg f n = Raise too_long /\ forallb writable msg = false /\
   ((exists f' e es, run_spec s msg f n = Ok (f', e :: es)) \/ exists x, run_spec s msg f n = Raise x)).
Proof.
  intros F. induction F as [|[i v] [j vl] s sl [E L] _ IH]; intros f; [left; reflexivity|]. cbn [fst snd] in *. subst j. cbn [run_spec].
  destruct (L msg i f n) as [R|(R & B & f' & e & es & X)]; rewrite R; cbn [bind].
  - destruct (v msg i f n) as [[f1 e1]|x]; cbn [bind]; [|left; reflexivity]. destruct (IH f1) as [Q|(Q & B & D)]; rewrite Q; cbn [bind]; [left; reflexivity|].
    right. split; [reflexivity|]. split; [exact B|]. destruct D as [(f' & e & es & X)|[x X]]; rewrite X; cbn [bind]; [left|right; eauto].
    destruct e1; cbn; eauto.
  - rewrite X. cbn [bind]. right. split; [reflexivity|]. split; [exact B|]. destruct (run_spec s msg f' n) as [[f2 e2]|x]; cbn [bind]; [left; cbn; eauto|right; eauto].
Qed.

Lemma specs c : let s := snd (spec_of c) in let sl := spec_lim c in
  vs_min sl = vs_min s /\ vs_max sl = vs_max s /\ vs_message sl = vs_message s /\ spec_limits (vs_spec s) (vs_spec sl).
Proof.
  destruct c; (split; [reflexivity|]; split; [reflexivity|]; split; [reflexivity|]); unfold spec_limits; cbn [spec_of snd spec_lim vs_spec];
  repeat (apply Forall2_cons; [split; [reflexivity|first [apply id_limits|apply hello_limits|apply welcome_limits|apply refl_limits]]|]); apply Forall2_nil.
Qed.

Lemma validate_limits c msg : let x := validate_message msg (fst (spec_of c)) (snd (spec_of c)) in
  let y := validate_message_lim msg (fst (spec_of c)) (spec_lim c) in
  y = x \/ (y = Raise too_long /\ forallb writable msg = false /\ exists e, x = Raise e).
Proof.
  cbn zeta. unfold validate_message, validate_message_lim. destruct (specs c) as (A & B & C & D). rewrite A, B, C.
  set (s := snd (spec_of c)) in *. set (t := fst (spec_of c)) in *.
  assert (S : sanity_check_lim msg (vs_min s) (vs_max s) t (vs_message s) = sanity_check msg (vs_min s) (vs_max s) t (vs_message s) \/
    (sanity_check_lim msg (vs_min s) (vs_max s) t (vs_message s) = Raise too_long /\ forallb writable msg = false /\
     exists e, sanity_check msg (vs_min s) (vs_max s) t (vs_message s) = Raise e)).
  { unfold sanity_check_lim. destruct (_ || _) eqn:O; [left; reflexivity|]. apply orb_false_elim in O. destruct O as [O1 O2]. unfold sanity_check. rewrite O1, O2.
    destruct (msg_at msg 0) as [h|e] eqn:M; cbn [bind]; [|left; reflexivity]. destruct (negb _); [|left; reflexivity].
    unfold write. destruct (writable h) eqn:W; cbn [bind]; [left; reflexivity|]. right. split; [reflexivity|]. split; [exact (at_writable _ _ _ M W)|eexists; reflexivity]. }
  destruct S as [S|(S & W & e & E)]; rewrite S; cbn [bind].
  - destruct (sanity_check _ _ _ _ _) as [[]|e]; cbn [bind]; [|left; reflexivity].
    destruct (run_spec_limits msg (vs_message s) _ _ D empty_fields) as [Q|(Q & W & X)]; rewrite Q; cbn [bind]; [left; reflexivity|].
    right. split; [reflexivity|]. split; [exact W|]. destruct X as [(f' & e & es & X)|[x X]]; rewrite X; eexists; reflexivity.
  - rewrite E. right. split; [reflexivity|]. split; [exact W|eexists; reflexivity].
Qed.

(** [parse] begins with the validation. *)
Lemma parse_validates c msg e : validate_message msg (fst (spec_of c)) (snd (spec_of c)) = Raise e -> parse_of c msg = Raise e.
Proof.
  destruct c; cbn [spec_of fst snd parse_of]; intros E;
  unfold parse_hello, parse_welcome, parse_abort, parse_challenge, parse_authenticate, parse_goodbye, parse_error, parse_publish, parse_published,
    parse_subscribe, parse_subscribed, parse_unsubscribe, parse_unsubscribed, parse_event, parse_call, parse_cancel, parse_result, parse_register,
    parse_registered, parse_unregister, parse_unregistered, parse_invocation, parse_interrupt, parse_yield; rewrite E; reflexivity.
Qed.
Lemma parse_limits c msg : parse_lim c msg = parse_of c msg \/
  (parse_lim c msg = Raise too_long /\ forallb writable msg = false /\ exists e, parse_of c msg = Raise e).
Proof.
  unfold parse_lim. destruct (validate_limits c msg) as [E|(E & W & e & X)]; cbn zeta in *; rewrite E; cbn [bind].
  - left. destruct (validate_message _ _ _) as [f|e] eqn:V; cbn [bind]; [reflexivity|]. symmetry. exact (parse_validates _ _ _ V).
  - right. split; [reflexivity|]. split; [exact W|]. exists e. exact (parse_validates _ _ _ X).
Qed.
Lemma lim_same c msg : forallb writable msg = true -> parse_lim c msg = parse_of c msg.
Proof. intros W. destruct (parse_limits c msg) as [E|(_ & F & _)]; [exact E|congruence]. Qed.
Lemma lim_ok c msg m : parse_lim c msg = Ok m <-> parse_of c msg = Ok m.
Proof. destruct (parse_limits c msg) as [E|(E & _ & e & X)]; rewrite E; [reflexivity|]. rewrite X. split; discriminate. Qed.
Lemma lim_raise c msg e : parse_lim c msg = Raise e -> parse_of c msg = Raise e \/ e = too_long.
Proof. destruct (parse_limits c msg) as [E|(E & _)]; rewrite E; intros H; [left; exact H|right; congruence]. Qed.

Lemma too_long_violations z : 2 ^ 53 < z -> length (violations CCall [VInt 48; VInt z; VInt 5; VInt 6]) = 3%nat.
Proof.
  intros H. unfold violations. cbn [tl schema_of sc_req sc_opt app map snd args_kwargs violations_from violations_at].
  replace (z <=? 2 ^ 53) with false by (symmetry; apply Z.leb_gt; exact H). rewrite andb_false_r. reflexivity.
Qed.
Lemma too_long_call z : (z <? MIN_ID) || (MAX_ID <? z) = true -> writable (VInt z) = false -> parse_lim CCall [VInt 48; VInt z; VInt 5; VInt 6] = Raise too_long.
Proof.
  intros B W. unfold parse_lim, validate_message_lim. cbn [spec_of fst snd spec_lim vs_min vs_max vs_message vs_spec].
  change (sanity_check_lim [VInt 48; VInt z; VInt 5; VInt 6] 4 6 T_CALL "CALL") with (@Ok unit tt). cbn [bind run_spec].
  unfold validate_request_id_lim, validate_at_lim. cbn [msg_at nth_error bind]. unfold validate_id_lim, validate_int_or_raise. cbn [as_int pyint_Z].
  rewrite B. unfold write. rewrite W. reflexivity.
Qed.
Lemma le_abs z : z <= Z.abs z. Proof. lia. Qed.
Lemma big_id z : 10 ^ 4300 <= z -> 2 ^ 53 < z.
Proof.
  intros H. apply Z.lt_le_trans with (10 ^ 4300); [|exact H]. clear H. apply Z.lt_le_trans with (10 ^ 16); [reflexivity|]. apply Z.pow_le_mono_r; [reflexivity|discriminate].
Qed.
Lemma big_unwritable z : 10 ^ 4300 <= z -> writable (VInt z) = false.
Proof. intros H. cbn [writable]. apply Z.ltb_ge. exact (Z.le_trans _ _ _ H (le_abs z)). Qed.
