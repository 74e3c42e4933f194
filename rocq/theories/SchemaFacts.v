(** * SchemaFacts: the validators implement the schema of SpecSchema.v (lemmas for C01-C09). *)
From Coq Require Import String Ascii List ZArith Bool Lia.
From Verif Require Import PyBase Messages Validate Parse SpecSchema.
Import ListNotations.
Local Open Scope string_scope.
Local Open Scope Z_scope.
Local Open Scope list_scope.

(** ** Validators report exactly the violations of their position *)
Definition implements (v : validator) (k : kind) : Prop :=
  forall msg idx f name x, nth_error msg idx = Some x ->
    exists f', v msg idx f name = Ok (f', map (render name) (violations_at idx k x)).

Definition implements_opt (v : validator) (k : kind) : Prop :=
  implements v k /\
  forall msg idx f name, nth_error msg idx = None -> v msg idx f name = Ok (f, []).

Ltac unf_at := unfold implements, validate_at, msg_at; intros msg idx f name x Hx; rewrite Hx; cbn [bind].

Lemma impl_id set : implements (validate_at validate_id_or_raise set) KId.
Proof.
  unf_at. unfold validate_id_or_raise, validate_int_or_raise.
  destruct x; cbn [as_int]; try (eexists; reflexivity); cbn [pyint_Z violations_at].
  - destruct b; cbn; eexists; reflexivity.
  - unfold MIN_ID, MAX_ID.
    replace ((z <? 1) || (2 ^ 53 <? z)) with (negb ((1 <=? z) && (z <=? 2 ^ 53))).
    + destruct ((1 <=? z) && (z <=? 2 ^ 53)); cbn [negb map]; eexists; reflexivity.
    + rewrite negb_andb, !Z.leb_antisym, !negb_involutive. reflexivity.
Qed.

Lemma impl_int set : implements (validate_at validate_int_or_raise set) KInt.
Proof. unf_at. destruct x; eexists; reflexivity. Qed.
Lemma impl_str set : implements (validate_at validate_string_or_raise set) KStr.
Proof. unf_at. destruct x; eexists; reflexivity. Qed.
Lemma impl_dict set : implements (validate_at validate_dict_or_raise set) KDict.
Proof. unf_at. destruct x; eexists; reflexivity. Qed.
Lemma impl_list set : implements (validate_at validate_list_or_raise set) KList.
Proof. unf_at. destruct x; eexists; reflexivity. Qed.

Lemma impl_args : implements_opt validate_args KList.
Proof.
  split.
  - intros msg idx f name x Hx. unfold validate_args.
    assert (Hl : (idx < length msg)%nat) by (apply nth_error_Some; congruence).
    apply Nat.ltb_lt in Hl. rewrite Hl. apply impl_list. exact Hx.
  - intros msg idx f name Hx. unfold validate_args.
    apply nth_error_None in Hx. apply Nat.ltb_ge in Hx. rewrite Hx. reflexivity.
Qed.
Lemma impl_kwargs : implements_opt validate_kwargs KDict.
Proof.
  split.
  - intros msg idx f name x Hx. unfold validate_kwargs.
    assert (Hl : (idx < length msg)%nat) by (apply nth_error_Some; congruence).
    apply Nat.ltb_lt in Hl. rewrite Hl. apply impl_dict. exact Hx.
  - intros msg idx f name Hx. unfold validate_kwargs.
    apply nth_error_None in Hx. apply Nat.ltb_ge in Hx. rewrite Hx. reflexivity.
Qed.

Definition detail_validator := dict -> nat -> Fields -> string -> Fields * list string.
Definition det_implements (v : detail_validator) (vs : nat -> dict -> list violation) : Prop :=
  forall d idx f name, snd (v d idx f name) = map (render name) (vs idx d).

Lemma det_entry {A} key exp (as_ : val -> option A) set good :
  (forall v, good v = match as_ v with Some _ => true | None => false end) ->
  det_implements (validate_detail key exp as_ set) (fun idx d => entry_violations good idx key exp d).
Proof.
  intros Hg d idx f name. unfold validate_detail, entry_violations, entry, sget_default.
  destruct (sget key d) as [v|]; [|reflexivity].
  destruct v; try reflexivity; cbn zeta; rewrite Hg;
    match goal with |- context [as_ ?x] => destruct (as_ x) end; reflexivity.
Qed.

Lemma first_bad_role_find r :
  first_bad_role r = match find (fun kv => negb (known_role (fst kv))) r with
                     | Some (k, _) => Some k | None => None end.
Proof.
  induction r as [|[k v] r IH]; [reflexivity|].
  cbn [first_bad_role find fst]. destruct k; cbn [known_role negb]; try reflexivity.
  change allowed_roles with roles_known.
  destruct (existsb (String.eqb s) roles_known); cbn [negb]; auto.
Qed.

Lemma det_roles : det_implements validate_roles roles_violations.
Proof.
  intros d idx f name. unfold validate_roles, roles_violations, entry, sget_default.
  destruct (sget "roles" d) as [v|]; [|reflexivity].
  destruct v; try reflexivity. cbn [as_dict].
  destruct d0 as [|kv r]; [reflexivity|].
  rewrite first_bad_role_find.
  destruct (find (fun kv0 => negb (known_role (fst kv0))) (kv :: r)) as [[k w]|]; reflexivity.
Qed.

Lemma run_details_viol vs ws :
  Forall2 det_implements vs ws ->
  forall d idx f name, snd (run_details vs d idx f name) = map (render name) (flat_map (fun w => w idx d) ws).
Proof.
  induction 1 as [|v w vs ws Hv Hr IH]; intros d idx f name; [reflexivity|].
  cbn [run_details flat_map]. specialize (Hv d idx f name).
  destruct (v d idx f name) as [f1 e1]. cbn [snd] in Hv. subst e1.
  specialize (IH d idx f1 name). destruct (run_details vs d idx f1 name) as [f2 e2].
  cbn [snd] in *. subst e2. rewrite map_app. reflexivity.
Qed.

Lemma impl_details vs ws (k : kind) :
  Forall2 det_implements vs ws ->
  (forall idx d, violations_at idx k (VDict d) = flat_map (fun w => w idx d) ws) ->
  (forall idx x, as_dict x = None -> violations_at idx k x = [WrongType idx "dict" x]) ->
  implements (validate_details_with vs) k.
Proof.
  intros H Hd Hn msg idx f name x Hx. unfold validate_details_with, msg_at, validate_dict_or_raise.
  rewrite Hx. cbn [bind]. destruct (as_dict x) as [d|] eqn:E.
  - destruct x; try discriminate. cbn in E. injection E as ->.
    rewrite Hd. pose proof (run_details_viol _ _ H d idx f name) as Hr.
    destruct (run_details vs d idx f name) as [f' e]. cbn [snd] in Hr.
    destruct e; eexists; apply f_equal, f_equal; exact Hr.
  - rewrite (Hn _ _ E). eexists. reflexivity.
Qed.

Lemma impl_hello_details : implements validate_hello_details KHelloDetails.
Proof.
  eapply (impl_details _ [fun i d => entry_violations is_str i "authid" "string" d;
                          fun i d => entry_violations is_str i "authrole" "string" d;
                          fun i d => entry_violations is_list i "authmethods" "list" d;
                          roles_violations;
                          fun i d => entry_violations is_dict i "authextra" "dict" d]).
  - repeat constructor; try apply det_roles; apply det_entry; intros []; reflexivity.
  - intros idx d. cbn [flat_map]. rewrite app_nil_r. reflexivity.
  - intros idx [] Hx; try reflexivity; discriminate.
Qed.
Lemma impl_welcome_details : implements validate_welcome_details KWelcomeDetails.
Proof.
  eapply (impl_details _ [roles_violations;
                          fun i d => entry_violations is_str i "authid" "string" d;
                          fun i d => entry_violations is_str i "authrole" "string" d;
                          fun i d => entry_violations is_dict i "authextra" "dict" d;
                          fun i d => entry_violations is_str i "authmethod" "string" d]).
  - repeat constructor; try apply det_roles; apply det_entry; intros []; reflexivity.
  - intros idx d. cbn [flat_map]. rewrite app_nil_r. reflexivity.
  - intros idx [] Hx; try reflexivity; discriminate.
Qed.

Lemma Forall2_length {A B} {R : A -> B -> Prop} {l1 l2} : Forall2 R l1 l2 -> length l1 = length l2.
Proof. induction 1; cbn; congruence. Qed.

Lemma skipn_nth {A} (l : list A) i x : nth_error l i = Some x -> skipn i l = x :: skipn (S i) l.
Proof.
  revert i; induction l as [|a l IH]; intros [|i] H; try discriminate; cbn in *.
  - congruence.
  - apply IH in H. exact H.
Qed.

Lemma run_spec_opt vs ks :
  Forall2 implements_opt vs ks ->
  forall i msg f name, exists f',
    run_spec (combine (seq i (length vs)) vs) msg f name
    = Ok (f', map (render name) (violations_from i ks (skipn i msg))).
Proof.
  induction 1 as [|v k vs ks [Hv Hn] Hr IH]; intros i msg f name; [eexists; reflexivity|].
  cbn [length seq combine run_spec].
  destruct (nth_error msg i) as [x|] eqn:E.
  - destruct (Hv _ _ f name _ E) as [f1 ->]. cbn [bind].
    destruct (IH (S i) msg f1 name) as [f2 ->]. cbn [bind].
    rewrite (skipn_nth _ _ _ E). cbn [violations_from]. rewrite map_app. eexists; reflexivity.
  - rewrite (Hn _ _ f name E). cbn [bind].
    destruct (IH (S i) msg f name) as [f2 ->]. cbn [bind].
    apply nth_error_None in E. rewrite !skipn_all2 by lia. destruct ks; eexists; reflexivity.
Qed.

Lemma run_spec_req vs ks vo ko :
  Forall2 implements vs ks -> Forall2 implements_opt vo ko ->
  forall i msg f name, (i + length ks <= length msg)%nat -> exists f',
    run_spec (combine (seq i (length (vs ++ vo))) (vs ++ vo)) msg f name
    = Ok (f', map (render name) (violations_from i (ks ++ ko) (skipn i msg))).
Proof.
  intros Hr Ho. induction Hr as [|v k vs ks Hv Hr IH]; intros i msg f name Hl.
  - apply run_spec_opt. exact Ho.
  - cbn [length seq combine run_spec app] in *.
    destruct (nth_error msg i) as [x|] eqn:E; [|apply nth_error_None in E; lia].
    destruct (Hv _ _ f name _ E) as [f1 ->]. cbn [bind].
    destruct (IH (S i) msg f1 name) as [f2 ->]; [lia|]. cbn [bind].
    rewrite (skipn_nth _ _ _ E). cbn [violations_from]. rewrite map_app. eexists; reflexivity.
Qed.

(** ** The VALIDATION_SPEC of each class *)
Definition spec_of (c : mclass) : ValidationSpec :=
  match c with
  | CHello => SPEC_hello | CWelcome => SPEC_welcome | CAbort => SPEC_abort | CChallenge => SPEC_challenge
  | CAuthenticate => SPEC_authenticate | CGoodbye => SPEC_goodbye | CError => SPEC_error
  | CPublish => SPEC_publish | CPublished => SPEC_published | CSubscribe => SPEC_subscribe
  | CSubscribed => SPEC_subscribed | CUnsubscribe => SPEC_unsubscribe | CUnsubscribed => SPEC_unsubscribed
  | CEvent => SPEC_event | CCall => SPEC_call | CCancel => SPEC_cancel | CResult => SPEC_result
  | CRegister => SPEC_register | CRegistered => SPEC_registered | CUnregister => SPEC_unregister
  | CUnregistered => SPEC_unregistered | CInvocation => SPEC_invocation | CInterrupt => SPEC_interrupt
  | CYield => SPEC_yield
  end.

Lemma spec_shape c : exists vs vo,
  Forall2 implements vs (map snd (sc_req (schema_of c))) /\
  Forall2 implements_opt vo (map snd (sc_opt (schema_of c))) /\
  vs_spec (spec_of c) = combine (seq 1 (length (vs ++ vo))) (vs ++ vo) /\
  vs_min (spec_of c) = (1 + length vs)%nat /\ vs_max (spec_of c) = (1 + length vs + length vo)%nat /\
  vs_message (spec_of c) = sc_name (schema_of c).
Proof.
  assert (Ho0 : Forall2 implements_opt [] []) by constructor.
  assert (Ho2 : Forall2 implements_opt [validate_args; validate_kwargs] [KList; KDict])
    by (repeat constructor; (apply impl_args || apply impl_kwargs)).
  Local Ltac impl := repeat (first
    [ apply Forall2_nil
    | apply Forall2_cons; [first [apply impl_id | apply impl_int | apply impl_str | apply impl_dict
                                  | apply impl_hello_details | apply impl_welcome_details]|] ]).
  Local Ltac go vs vo := exists vs, vo; split; [cbn; impl | split; [first [assumption]|repeat split]].
  destruct c.
  - go [validate_realm; validate_hello_details] (@nil validator).
  - go [validate_session_id; validate_welcome_details] (@nil validator).
  - go [validate_details; validate_reason] [validate_args; validate_kwargs].
  - go [validate_authmethod; validate_extra] (@nil validator).
  - go [validate_signature; validate_extra] (@nil validator).
  - go [validate_details; validate_reason] (@nil validator).
  - go [validate_message_type; validate_request_id; validate_details; validate_uri] [validate_args; validate_kwargs].
  - go [validate_request_id; validate_options; validate_topic] [validate_args; validate_kwargs].
  - go [validate_request_id; validate_publication_id] (@nil validator).
  - go [validate_request_id; validate_options; validate_topic] (@nil validator).
  - go [validate_request_id; validate_subscription_id] (@nil validator).
  - go [validate_request_id; validate_subscription_id] (@nil validator).
  - go [validate_request_id] (@nil validator).
  - go [validate_subscription_id; validate_publication_id; validate_details] [validate_args; validate_kwargs].
  - go [validate_request_id; validate_options; validate_procedure] [validate_args; validate_kwargs].
  - go [validate_request_id; validate_options] (@nil validator).
  - go [validate_request_id; validate_details] [validate_args; validate_kwargs].
  - go [validate_request_id; validate_options; validate_procedure] (@nil validator).
  - go [validate_request_id; validate_registration_id] (@nil validator).
  - go [validate_request_id; validate_registration_id] (@nil validator).
  - go [validate_request_id] (@nil validator).
  - go [validate_request_id; validate_registration_id; validate_details] [validate_args; validate_kwargs].
  - go [validate_request_id; validate_options] (@nil validator).
  - go [validate_request_id; validate_options] [validate_args; validate_kwargs].
Qed.

(** What [validate_message] does, in terms of the schema alone. *)
Lemma validate_message_spec c l :
  (~ length_ok c l -> exists s, validate_message l (sc_code (schema_of c)) (spec_of c) = Raise (ValueError [s])) /\
  (length_ok c l -> ~ head_ok c l ->
     exists s, validate_message l (sc_code (schema_of c)) (spec_of c) = Raise (ValueError [s])) /\
  (length_ok c l -> head_ok c l -> violations c l <> [] ->
     validate_message l (sc_code (schema_of c)) (spec_of c)
     = Raise (ValueError (map (render (sc_name (schema_of c))) (violations c l)))) /\
  (length_ok c l -> head_ok c l -> violations c l = [] ->
     exists f, validate_message l (sc_code (schema_of c)) (spec_of c) = Ok f).
Proof.
  destruct (spec_shape c) as (vs & vo & Hv & Ho & Hs & Hmin & Hmax & Hn).
  pose proof (Forall2_length Hv) as L1. pose proof (Forall2_length Ho) as L2. rewrite map_length in L1, L2.
  unfold validate_message, sanity_check, length_ok. rewrite Hmin, Hmax, Hn.
  destruct (length l <? 1 + length vs)%nat eqn:E1; cbn [bind].
  { apply Nat.ltb_lt in E1. repeat split; intros; try lia. eexists; reflexivity. }
  apply Nat.ltb_ge in E1.
  destruct (1 + length vs + length vo <? length l)%nat eqn:E2; cbn [bind].
  { apply Nat.ltb_lt in E2. repeat split; intros; try lia. eexists; reflexivity. }
  apply Nat.ltb_ge in E2.
  split; [intros HH; exfalso; apply HH; lia|].
  destruct l as [|t l]; [cbn in E1; lia|].
  unfold msg_at. cbn [nth_error bind]. unfold head_ok.
  destruct (py_eq_int t (sc_code (schema_of c))) eqn:Et; cbn [negb bind].
  2:{ repeat split; intros; try (eexists; reflexivity);
      match goal with H : exists _, _ |- _ => destruct H as (t' & r & Hq & He); congruence end. }
  split; [intros _ HH; exfalso; apply HH; eauto|].
  destruct (run_spec_req vs _ vo _ Hv Ho 1 (t :: l) empty_fields (sc_name (schema_of c))) as [f Hf].
  { rewrite map_length. lia. }
  rewrite Hs, Hf. cbn [bind skipn]. unfold violations. rewrite map_app. cbn [tl].
  match goal with |- context [violations_from ?a ?b ?d] => destruct (violations_from a b d) as [|v w] end.
  - split; [congruence|]. intros. eexists. reflexivity.
  - split; [reflexivity|]. discriminate.
Qed.

(** ** [parse] in terms of [validate_message] *)
Lemma validate_raise_parse c l e :
  validate_message l (sc_code (schema_of c)) (spec_of c) = Raise e -> parse_of c l = Raise e.
Proof.
  intros H. destruct c; cbn [parse_of sc_code schema_of spec_of] in *;
    cbv [parse_hello parse_welcome parse_abort parse_challenge parse_authenticate parse_goodbye parse_error
         parse_publish parse_published parse_subscribe parse_subscribed parse_unsubscribe parse_unsubscribed
         parse_event parse_call parse_cancel parse_result parse_register parse_registered parse_unregister
         parse_unregistered parse_invocation parse_interrupt parse_yield];
    match goal with |- bind (validate_message _ ?t _) _ = _ =>
      let t' := eval cbv in t in change t with t' end;
    rewrite H; reflexivity.
Qed.

(** ** Violations and fitting *)
Lemma fits_id_viol idx v : violations_at idx KId v = [] <-> fits_id v.
Proof.
  unfold fits_id. destruct v; cbn [violations_at]; split; intros H;
    try discriminate; try (destruct H as [(z' & Hz & _)|Hb]; discriminate).
  - destruct b; [right; reflexivity|discriminate].
  - destruct b; [reflexivity|]. destruct H as [(z' & Hz & _)|Hb]; discriminate.
  - left. exists z. split; [reflexivity|]. destruct ((1 <=? z) && (z <=? 2 ^ 53)) eqn:E; [|discriminate].
    apply andb_true_iff in E. destruct E as [E1 E2]. apply Z.leb_le in E1, E2. lia.
  - destruct H as [(z' & Hz & Hr)|Hb]; [|discriminate]. injection Hz as <-.
    replace ((1 <=? z) && (z <=? 2 ^ 53)) with true; [reflexivity|].
    symmetry. apply andb_true_iff. split; apply Z.leb_le; lia.
Qed.

Lemma fits_entry_viol good (P : val -> Prop) idx key exp d :
  (forall v, good v = true <-> P v) ->
  entry_violations good idx key exp d = [] <-> fits_entry P key d.
Proof.
  intros HP. unfold entry_violations, fits_entry, entry. destruct (sget key d) as [v|].
  2:{ split; auto. }
  assert (Hv : v = VNone \/ v <> VNone) by (destruct v; (left; reflexivity) || (right; discriminate)).
  destruct Hv as [->|Hv]; [split; auto|].
  transitivity (good v = true).
  - destruct v; try congruence; (destruct (good _); split; congruence || discriminate || auto).
  - rewrite HP. split.
    + intros H. right. right. exists v. auto.
    + intros [H|[H|(w & Hw & H)]]; congruence.
Qed.

Lemma known_role_spec k : known_role k = true <-> exists s, k = VStr s /\ In s roles_known.
Proof.
  unfold known_role. destruct k; split; intros H; try discriminate;
    try (destruct H as (s' & Hs & _); discriminate).
  - apply existsb_exists in H. destruct H as (x & Hx & He). apply String.eqb_eq in He. subst. eauto.
  - destruct H as (s' & Hs & Hin). injection Hs as ->. apply existsb_exists. exists s'.
    split; [exact Hin|apply String.eqb_refl].
Qed.

Lemma fits_roles_viol idx d : roles_violations idx d = [] <-> fits_roles d.
Proof.
  unfold roles_violations, fits_roles, entry. destruct (sget "roles" d) as [v|].
  2:{ split; [discriminate|]. intros (r & H & _). discriminate. }
  destruct v; try (split; [discriminate|]; intros (r & H & _); discriminate).
  destruct d0 as [|kv r].
  { split; [discriminate|]. intros (r & H & Hr & _). congruence. }
  destruct (find _ (kv :: r)) as [[k w]|] eqn:E.
  - split; [discriminate|]. intros (r' & H & _ & Hall). injection H as <-.
    apply find_some in E. destruct E as [Hin Hb]. cbn [fst] in Hb.
    apply Hall in Hin. apply known_role_spec in Hin. rewrite Hin in Hb. discriminate.
  - split; [|reflexivity]. intros _. exists (kv :: r). split; [reflexivity|]. split; [discriminate|].
    intros k v Hin. pose proof (find_none _ _ E _ Hin) as Hf. cbn [fst] in Hf.
    apply negb_false_iff in Hf. apply known_role_spec. exact Hf.
Qed.

Lemma app_nil_iff {A} (a b : list A) : a ++ b = [] <-> a = [] /\ b = [].
Proof. destruct a, b; cbn; intuition discriminate. Qed.

Lemma is_str_spec v : is_str v = true <-> IsStr v.
Proof. unfold IsStr. destruct v; cbn; split; try discriminate; try (intros [? ?]; discriminate); eauto. Qed.
Lemma is_list_spec v : is_list v = true <-> IsList v.
Proof. unfold IsList. destruct v; cbn; split; try discriminate; try (intros [? ?]; discriminate); eauto. Qed.
Lemma is_dict_spec v : is_dict v = true <-> IsDict v.
Proof. unfold IsDict. destruct v; cbn; split; try discriminate; try (intros [? ?]; discriminate); eauto. Qed.

Lemma fits_viol idx k v : violations_at idx k v = [] <-> fits k v.
Proof.
  destruct k.
  - apply fits_id_viol.
  - destruct v; cbn; split; try discriminate; eauto; intros [[? ?]|[? ?]]; discriminate.
  - destruct v; cbn; unfold IsStr; split; try discriminate; eauto; intros [? ?]; discriminate.
  - destruct v; cbn; unfold IsDict; split; try discriminate; eauto; intros [? ?]; discriminate.
  - destruct v; cbn; unfold IsList; split; try discriminate; eauto; intros [? ?]; discriminate.
  - destruct v; cbn [violations_at fits];
      try (split; [discriminate|intros (d' & H & _); discriminate]).
    rewrite !app_nil_iff.
    rewrite (fits_entry_viol is_str IsStr) by apply is_str_spec.
    rewrite (fits_entry_viol is_str IsStr) by apply is_str_spec.
    rewrite (fits_entry_viol is_list IsList) by apply is_list_spec.
    rewrite (fits_entry_viol is_dict IsDict) by apply is_dict_spec.
    rewrite fits_roles_viol. split.
    + intros (H1 & H2 & H3 & H4 & H5). exists d. repeat split; assumption.
    + intros (d' & Hd & H). injection Hd as <-. tauto.
  - destruct v; cbn [violations_at fits];
      try (split; [discriminate|intros (d' & H & _); discriminate]).
    rewrite !app_nil_iff.
    rewrite !(fits_entry_viol is_str IsStr) by apply is_str_spec.
    rewrite (fits_entry_viol is_dict IsDict) by apply is_dict_spec.
    rewrite fits_roles_viol. split.
    + intros (H1 & H2 & H3 & H4 & H5). exists d. repeat split; assumption.
    + intros (d' & Hd & H). injection Hd as <-. tauto.
Qed.

Lemma violations_from_fits ks : forall idx l, (length l <= length ks)%nat ->
  (violations_from idx ks l = [] <-> Forall2 fits (firstn (length l) ks) l).
Proof.
  induction ks as [|k ks IH]; intros idx [|v l] Hl; cbn in Hl; try lia; cbn [violations_from length firstn];
    try (split; [constructor|reflexivity]).
  rewrite app_nil_iff, fits_viol, IH by lia. split.
  - intros [H1 H2]. constructor; assumption.
  - intros H. inversion H; subst. auto.
Qed.

Lemma conforms_iff c l : conforms c l <-> length_ok c l /\ head_ok c l /\ violations c l = [].
Proof.
  unfold conforms, length_ok, head_ok, violations.
  remember (sc_req (schema_of c)) as R. remember (sc_opt (schema_of c)) as O.
  split.
  - intros (t & req & opt & -> & Ht & Hr & Hlo & Ho).
    pose proof (Forall2_length Hr) as Lr. rewrite map_length in Lr.
    cbn [length tl]. rewrite app_length. split; [lia|]. split; [eauto|].
    apply violations_from_fits.
    + rewrite map_length, !app_length. lia.
    + rewrite map_app, app_length, firstn_app, firstn_all2 by (rewrite map_length; lia).
      rewrite map_length. replace (length req + length opt - length R)%nat with (length opt) by lia.
      apply Forall2_app; assumption.
  - intros (Hl & (t & r & -> & Ht) & Hv). cbn [tl length] in *.
    apply violations_from_fits in Hv; [|rewrite map_length, app_length; lia].
    exists t, (firstn (length R) r), (skipn (length R) r).
    assert (LR : length (firstn (length R) r) = length R) by (rewrite firstn_length; lia).
    rewrite firstn_skipn, skipn_length. split; [reflexivity|]. split; [exact Ht|].
    rewrite <- (firstn_skipn (length R) r) in Hv at 2.
    rewrite map_app, firstn_app, firstn_all2 in Hv by (rewrite map_length; lia).
    rewrite map_length in Hv.
    apply Forall2_app_inv_l in Hv. destruct Hv as (l1 & l2 & H1 & H2 & He).
    assert (L1 : length l1 = length R) by (apply Forall2_length in H1; rewrite map_length in H1; lia).
    apply app_inj_tail_iff in He || idtac.
    assert (E : l1 = firstn (length R) r /\ l2 = skipn (length R) r).
    { assert (E1 : firstn (length l1) (l1 ++ l2) = l1) by (rewrite firstn_app, Nat.sub_diag, firstn_all2, firstn_O, app_nil_r; auto).
      rewrite <- He, L1 in E1. rewrite firstn_app, LR, Nat.sub_diag, firstn_O, app_nil_r in E1.
      rewrite firstn_firstn, Nat.min_id in E1. subst l1. split; [reflexivity|].
      apply app_inv_head in He. symmetry. exact He. }
    destruct E as [-> ->]. split; [exact H1|]. split; [lia|].
    replace (length r - length R)%nat with (length r - length R)%nat by lia. exact H2.
Qed.

(** ** What an accepted list is read as *)
Lemma fits_id_inv v : fits_id v ->
  exists i, v = pyint_val i /\ forall idx name, validate_id_or_raise v idx name = inl i.
Proof.
  intros [(z & -> & Hz)| ->].
  - exists (PyInt z). split; [reflexivity|]. intros idx name.
    unfold validate_id_or_raise, validate_int_or_raise, MIN_ID, MAX_ID. cbn [as_int pyint_Z].
    destruct (z <? 1) eqn:E1; [apply Z.ltb_lt in E1; lia|].
    destruct (2 ^ 53 <? z) eqn:E2; [apply Z.ltb_lt in E2; lia|]. reflexivity.
  - exists (PyBool true). split; reflexivity.
Qed.

Lemma fits_int_inv v : fits KInt v ->
  exists i, v = pyint_val i /\ forall idx name, validate_int_or_raise v idx name = inl i.
Proof.
  intros [[z ->]|[b ->]]; [exists (PyInt z)|exists (PyBool b)]; split; reflexivity.
Qed.

Lemma validate_detail_fits {A} key exp (as_ : val -> option A) (inj : A -> val) set (P : val -> Prop) d idx f name :
  (forall v, P v -> v <> VNone) ->
  (forall v, P v -> exists a, as_ v = Some a /\ v = inj a) ->
  fits_entry P key d ->
  exists o, validate_detail key exp as_ set d idx f name = (set o f, [])
            /\ entry d key = match o with Some a => inj a | None => VNone end
            /\ (entry d key = VNone -> o = None).
Proof.
  intros Hn HP H. unfold validate_detail, entry, sget_default.
  destruct H as [H|[H|(v & H & Hv)]]; rewrite H.
  - exists None. auto.
  - exists None. auto.
  - destruct (HP v Hv) as (a & Ha & Hi). exists (Some a).
    pose proof (Hn v Hv) as Hne. destruct v; try congruence; rewrite Ha; (split; [reflexivity|split; [exact Hi|discriminate]]).
Qed.

Lemma validate_roles_fits d idx f name : fits_roles d ->
  exists r, validate_roles d idx f name = (set_roles (Some r) f, []) /\ entry d "roles" = VDict r.
Proof.
  intros H. pose proof (det_roles d idx f name) as Hd. pose proof H as H0.
  apply (fits_roles_viol idx) in H0. rewrite H0 in Hd.
  destruct H as (r & Hr & Hne & Hall).
  unfold validate_roles, sget_default, entry in *. rewrite Hr in *. cbn [as_dict] in *.
  destruct r as [|kv r]; [congruence|].
  destruct (first_bad_role (kv :: r)); [discriminate|]. exists (kv :: r). auto.
Qed.

Lemma hello_details_fits msg idx f name d :
  nth_error msg idx = Some (VDict d) -> fits KHelloDetails (VDict d) ->
  exists r a ar am ax,
    validate_hello_details msg idx f name
    = Ok (set_details (Some d) (set_authextra ax (set_roles (Some r) (set_authmethods am
            (set_authrole ar (set_authid a f))))), [])
    /\ entry d "roles" = VDict r /\ entry d "authid" = ostr a /\ entry d "authmethods" = olist am
    /\ entry d "authextra" = odict ax.
Proof.
  intros Hx (d' & Hd & Hr & H1 & H2 & H3 & H4). injection Hd as <-.
  unfold validate_hello_details, validate_details_with, msg_at. rewrite Hx. cbn [bind].
  unfold validate_dict_or_raise. cbn [as_dict run_details].
  unfold validate_authid, validate_authrole, validate_authmethods, validate_authextra.
  edestruct (validate_detail_fits "authid" STRING as_str VStr set_authid IsStr d idx f name) as (a & -> & Ea & _);
    try exact H1; try (intros v [s ->]; (discriminate || (exists s; split; reflexivity))); cbv beta iota.
  edestruct (validate_detail_fits "authrole" STRING as_str VStr set_authrole IsStr d idx) as (ar & -> & Ear & _);
    try exact H2; try (intros v [s ->]; (discriminate || (exists s; split; reflexivity))); cbv beta iota.
  edestruct (validate_detail_fits "authmethods" LIST as_list VList set_authmethods IsList d idx) as (am & -> & Eam & _);
    try exact H3; try (intros v [s ->]; (discriminate || (exists s; split; reflexivity))); cbv beta iota.
  edestruct (validate_roles_fits d idx) as (r & -> & Er); [exact Hr|]; cbv beta iota.
  edestruct (validate_detail_fits "authextra" DICT as_dict VDict set_authextra IsDict d idx) as (ax & -> & Eax & _);
    try exact H4; try (intros v [s ->]; (discriminate || (exists s; split; reflexivity))); cbv beta iota.
  exists r, a, ar, am, ax. repeat split; assumption.
Qed.

Lemma welcome_details_fits msg idx f name d :
  nth_error msg idx = Some (VDict d) -> fits KWelcomeDetails (VDict d) ->
  exists r a ar am ax,
    validate_welcome_details msg idx f name
    = Ok (set_details (Some d) (set_authmethod am (set_authextra ax (set_authrole ar (set_authid a
            (set_roles (Some r) f))))), [])
    /\ entry d "roles" = VDict r /\ entry d "authid" = ostr a /\ entry d "authrole" = ostr ar
    /\ entry d "authmethod" = ostr am /\ entry d "authextra" = odict ax.
Proof.
  intros Hx (d' & Hd & Hr & H1 & H2 & H3 & H4). injection Hd as <-.
  unfold validate_welcome_details, validate_details_with, msg_at. rewrite Hx. cbn [bind].
  unfold validate_dict_or_raise. cbn [as_dict run_details].
  unfold validate_authid, validate_authrole, validate_welcome_authmethod, validate_authextra.
  edestruct (validate_roles_fits d idx) as (r & -> & Er); [exact Hr|]; cbv beta iota.
  edestruct (validate_detail_fits "authid" STRING as_str VStr set_authid IsStr d idx) as (a & -> & Ea & _);
    try exact H1; try (intros v [s ->]; (discriminate || (exists s; split; reflexivity))); cbv beta iota.
  edestruct (validate_detail_fits "authrole" STRING as_str VStr set_authrole IsStr d idx) as (ar & -> & Ear & _);
    try exact H2; try (intros v [s ->]; (discriminate || (exists s; split; reflexivity))); cbv beta iota.
  edestruct (validate_detail_fits "authextra" DICT as_dict VDict set_authextra IsDict d idx) as (ax & -> & Eax & _);
    try exact H4; try (intros v [s ->]; (discriminate || (exists s; split; reflexivity))); cbv beta iota.
  edestruct (validate_detail_fits "authmethod" STRING as_str VStr set_authmethod IsStr d idx) as (am & -> & Eam & _);
    try exact H3; try (intros v [s ->]; (discriminate || (exists s; split; reflexivity))); cbv beta iota.
  exists r, a, ar, am, ax. repeat split; assumption.
Qed.

Ltac inv_forall2 := repeat match goal with
  | H : Forall2 _ (_ :: _) _ |- _ => inversion H; clear H; subst
  | H : Forall2 _ [] _ |- _ => inversion H; clear H; subst
  end.

Ltac inv_fits := repeat match goal with
  | H : fits KId _ |- _ => apply fits_id_inv in H; destruct H as (? & -> & ?)
  | H : fits KInt _ |- _ => apply fits_int_inv in H; destruct H as (? & -> & ?)
  | H : fits KStr _ |- _ => destruct H as (? & ->)
  | H : fits KDict _ |- _ => destruct H as (? & ->)
  | H : fits KList _ |- _ => destruct H as (? & ->)
  end.

Ltac cbv_fields := cbv [bind need dict_or_empty empty_fields app
  set_request_id f_request_id set_uri f_uri set_procedure f_procedure set_args f_args
  set_kwargs f_kwargs set_session_id f_session_id set_realm f_realm set_authid f_authid
  set_authrole f_authrole set_authmethod f_authmethod set_authmethods f_authmethods set_authextra f_authextra
  set_roles f_roles set_message_type f_message_type set_signature f_signature set_reason f_reason
  set_topic f_topic set_extra f_extra set_options f_options set_details f_details
  set_subscription_id f_subscription_id set_publication_id f_publication_id set_registration_id f_registration_id].

Lemma read_hello l : conforms CHello l ->
  exists m, parse_of CHello l = Ok m /\ class_of m = CHello /\ attrs m = expected_attrs CHello l
            /\ payload_of m = no_payload.
Proof.
  intros (t & req & opt & -> & Ht & Hr & Hlo & Ho). cbn [schema_of sc_req sc_opt map snd length] in *.
  destruct opt; [|cbn in Hlo; lia]. clear Hlo Ho. inv_forall2.
  match goal with H : fits KHelloDetails _ |- _ => pose proof H as Hd; destruct H as (d & -> & _) end.
  inv_fits. destruct (hello_details_fits [t; VStr x; VDict d] 2 (set_realm (Some x) empty_fields) "HELLO" d)
    as (r & a & ar & am & ax & Hv & E1 & E2 & E3 & E4); [reflexivity|exact Hd|].
  cbn [app parse_of]. unfold parse_hello, validate_message, sanity_check.
  cbn [SPEC_hello vs_min vs_max vs_message vs_spec length Nat.ltb Nat.leb].
  unfold msg_at. cbn [nth_error bind]. change T_HELLO with 1.
  cbn [sc_code schema_of] in Ht. rewrite Ht. cbn [negb bind run_spec].
  unfold validate_realm at 1, validate_at, msg_at, validate_string_or_raise. cbn [nth_error bind as_str].
  rewrite Hv. cbv_fields.
  eexists. split; [reflexivity|]. split; [reflexivity|].
  split; [|reflexivity]. unfold expected_attrs. cbn. rewrite E1, E2, E3, E4. reflexivity.
Qed.

Lemma read_welcome l : conforms CWelcome l ->
  exists m, parse_of CWelcome l = Ok m /\ class_of m = CWelcome /\ attrs m = expected_attrs CWelcome l
            /\ payload_of m = no_payload.
Proof.
  intros (t & req & opt & -> & Ht & Hr & Hlo & Ho). cbn [schema_of sc_req sc_opt map snd length] in *.
  destruct opt; [|cbn in Hlo; lia]. clear Hlo Ho. inv_forall2.
  match goal with H : fits KWelcomeDetails _ |- _ => pose proof H as Hd; destruct H as (d & -> & _) end.
  inv_fits.
  destruct (welcome_details_fits [t; pyint_val x; VDict d] 2 (set_session_id (Some x) empty_fields) "WELCOME" d)
    as (r & a & ar & am & ax & Hv & E1 & E2 & E3 & E4 & E5); [reflexivity|exact Hd|].
  cbn [app parse_of]. unfold parse_welcome, validate_message, sanity_check.
  cbn [SPEC_welcome vs_min vs_max vs_message vs_spec length Nat.ltb Nat.leb].
  unfold msg_at. cbn [nth_error bind]. change T_WELCOME with 2.
  cbn [sc_code schema_of] in Ht. rewrite Ht. cbn [negb bind run_spec].
  unfold validate_session_id at 1, validate_at, msg_at. cbn [nth_error bind].
  match goal with E : forall _ _, validate_id_or_raise _ _ _ = _ |- _ => rewrite E end. cbn [bind]. rewrite Hv. cbv_fields.
  eexists. split; [reflexivity|]. split; [reflexivity|].
  split; [|reflexivity]. unfold expected_attrs. cbn. rewrite E1, E2, E3, E4, E5. destruct ax; reflexivity.
Qed.

Lemma read_conforms c l : conforms c l ->
  exists m, parse_of c l = Ok m /\ class_of m = c /\ attrs m = expected_attrs c l
            /\ payload_of m = no_payload.
Proof.
  intros H. destruct c; try (apply read_hello; exact H); try (apply read_welcome; exact H);
  destruct H as (t & req & opt & -> & Ht & Hr & Hlo & Ho);
  cbn [schema_of sc_req sc_opt args_kwargs map snd length sc_code] in *;
  (destruct opt as [|o1 opt]; [|try (cbn in Hlo; lia)]);
  try (destruct opt as [|o2 opt]); try (destruct opt as [|o3 opt]); try (exfalso; cbn in Hlo; lia);
  cbn [length firstn] in *; inv_forall2; inv_fits;
  cbn [app parse_of];
  cbv [parse_abort parse_challenge parse_authenticate parse_goodbye parse_error
         parse_publish parse_published parse_subscribe parse_subscribed parse_unsubscribe parse_unsubscribed
         parse_event parse_call parse_cancel parse_result parse_register parse_registered parse_unregister
         parse_unregistered parse_invocation parse_interrupt parse_yield validate_message sanity_check
         SPEC_abort SPEC_challenge SPEC_authenticate SPEC_goodbye SPEC_error SPEC_publish SPEC_published
         SPEC_subscribe SPEC_subscribed SPEC_unsubscribe SPEC_unsubscribed SPEC_event SPEC_call SPEC_cancel
         SPEC_result SPEC_register SPEC_registered SPEC_unregister SPEC_unregistered SPEC_invocation
         SPEC_interrupt SPEC_yield vs_min vs_max vs_message vs_spec
         validate_request_id validate_uri validate_procedure validate_args validate_kwargs validate_authmethod
         validate_message_type validate_signature validate_reason validate_topic validate_extra validate_options
         validate_details validate_subscription_id validate_publication_id validate_registration_id validate_at
         msg_at validate_string_or_raise validate_dict_or_raise validate_list_or_raise];
  cbn [length Nat.ltb Nat.leb nth_error bind];
  match goal with |- context [py_eq_int t ?T] => let T' := eval cbv in T in change T with T' end;
  rewrite Ht; cbn [negb bind run_spec nth_error as_str as_dict as_list];
  repeat (match goal with
    | E : forall _ _, validate_id_or_raise ?v _ _ = _ |- context [validate_id_or_raise ?v _ _] => rewrite E
    | E : forall _ _, validate_int_or_raise ?v _ _ = _ |- context [validate_int_or_raise ?v _ _] => rewrite E
    end; cbn [bind nth_error as_str as_dict as_list app]);
  cbv_fields; eexists; (split; [reflexivity|]); (split; [reflexivity|]);
  (split; reflexivity).
Qed.

(** ** [parse] exactly *)
Lemma parse_conforms_iff c l : (exists m, parse_of c l = Ok m) <-> conforms c l.
Proof.
  split.
  - intros [m Hm]. apply conforms_iff.
    destruct (validate_message_spec c l) as (H1 & H2 & H3 & _).
    assert (HL : length_ok c l).
    { unfold length_ok in *.
      destruct (le_dec (1 + length (sc_req (schema_of c))) (length l)) as [A|A];
      destruct (le_dec (length l) (1 + length (sc_req (schema_of c)) + length (sc_opt (schema_of c)))) as [B|B];
      try (split; assumption);
      (destruct H1 as [s Hs]; [lia|]; apply validate_raise_parse in Hs; congruence). }
    assert (HH : head_ok c l).
    { destruct l as [|t r]; [unfold length_ok in HL; cbn in HL; lia|].
      destruct (py_eq_int t (sc_code (schema_of c))) eqn:E; [exists t, r; auto|].
      destruct H2 as [s Hs]; [exact HL| |apply validate_raise_parse in Hs; congruence].
      intros (t' & r' & Hq & He). congruence. }
    split; [exact HL|]. split; [exact HH|].
    destruct (violations c l) eqn:E; [reflexivity|].
    specialize (H3 HL HH ltac:(discriminate)). apply validate_raise_parse in H3. congruence.
  - intros H. destruct (read_conforms c l H) as (m & Hm & _). eauto.
Qed.

Lemma parse_reads c l m : parse_of c l = Ok m ->
  class_of m = c /\ attrs m = expected_attrs c l /\ payload_of m = no_payload.
Proof.
  intros H. assert (Hc : conforms c l) by (apply parse_conforms_iff; eauto).
  destruct (read_conforms c l Hc) as (m' & Hm & H1 & H2 & H3).
  rewrite H in Hm. injection Hm as <-. auto.
Qed.

Lemma parse_raises c l e : parse_of c l = Raise e -> exists msgs, e = ValueError msgs /\ msgs <> [].
Proof.
  intros H. destruct (validate_message_spec c l) as (H1 & H2 & H3 & _).
  assert (HV : (exists s, validate_message l (sc_code (schema_of c)) (spec_of c) = Raise (ValueError s) /\ s <> [])).
  { destruct (le_dec (1 + length (sc_req (schema_of c))) (length l)) as [A|A];
    destruct (le_dec (length l) (1 + length (sc_req (schema_of c)) + length (sc_opt (schema_of c)))) as [B|B];
    try (destruct H1 as [s Hs]; [unfold length_ok; lia|]; rewrite Hs; exists [s]; split; [reflexivity|discriminate]).
    assert (HL : length_ok c l) by (split; assumption).
    destruct l as [|t r]; [cbn in A; lia|].
    destruct (py_eq_int t (sc_code (schema_of c))) eqn:E.
    2:{ destruct H2 as [s Hs]; [exact HL| |rewrite Hs; exists [s]; split; [reflexivity|discriminate]].
        intros (t' & r' & Hq & He). congruence. }
    assert (HH : head_ok c (t :: r)) by (exists t, r; auto).
    destruct (violations c (t :: r)) eqn:Ev.
    - assert (HC : conforms c (t :: r)) by (apply conforms_iff; auto).
      destruct (read_conforms c _ HC) as (m & Hm & _). congruence.
    - rewrite H3; [|assumption|assumption|discriminate].
      eexists. split; [reflexivity|]. discriminate. }
  destruct HV as (s & Hs & Hne). apply validate_raise_parse in Hs. rewrite Hs in H. injection H as <-. eauto.
Qed.

Lemma parse_violations c l : length_ok c l -> head_ok c l -> violations c l <> [] ->
  parse_of c l = Raise (ValueError (map (render (sc_name (schema_of c))) (violations c l))).
Proof.
  intros HL HH HV. apply validate_raise_parse. destruct (validate_message_spec c l) as (_ & _ & H3 & _). auto.
Qed.

Lemma violations_at_index idx k v x : In x (violations_at idx k v) -> violation_index x = idx.
Proof.
  assert (HE : forall good key exp d, In x (entry_violations good idx key exp d) -> violation_index x = idx).
  { intros good key exp d. unfold entry_violations. destruct (entry d key); cbn [In];
      try (destruct (good _)); cbn; intuition (subst; reflexivity). }
  assert (HR : forall d, In x (roles_violations idx d) -> violation_index x = idx).
  { intros d. unfold roles_violations. destruct (entry d "roles"); cbn; try (intuition (subst; reflexivity)).
    destruct d0 as [|kv r]; [cbn; intuition (subst; reflexivity)|].
    destruct (find _ (kv :: r)) as [[? ?]|]; cbn; intuition (subst; reflexivity). }
  destruct k; destruct v; cbn [violations_at]; try (destruct b; cbn; intuition (subst; reflexivity); fail);
    try (destruct (_ && _)); rewrite ?in_app_iff; cbn [In]; intuition (subst; auto); eauto.
Qed.

Lemma violations_from_ge ks : forall idx l x, In x (violations_from idx ks l) -> (idx <= violation_index x)%nat.
Proof.
  induction ks as [|k ks IH]; intros idx [|v l] x H; cbn in H; try contradiction.
  apply in_app_iff in H. destruct H as [H|H].
  - apply violations_at_index in H. lia.
  - apply IH in H. lia.
Qed.

From Coq Require Import Sorted.
Lemma violations_from_sorted ks : forall idx l,
  StronglySorted le (map violation_index (violations_from idx ks l)).
Proof.
  induction ks as [|k ks IH]; intros idx [|v l]; cbn [violations_from map]; try constructor.
  rewrite map_app.
  assert (Hall : Forall (fun x => x = idx) (map violation_index (violations_at idx k v))).
  { apply Forall_forall. intros i Hi. apply in_map_iff in Hi. destruct Hi as (x & <- & Hx).
    eapply violations_at_index; eauto. }
  assert (Hge : Forall (fun x => (idx <= x)%nat) (map violation_index (violations_from (S idx) ks l))).
  { apply Forall_forall. intros i Hi. apply in_map_iff in Hi. destruct Hi as (x & <- & Hx).
    apply violations_from_ge in Hx. lia. }
  induction Hall as [|i is -> Hrest IHi]; cbn [app]; [apply IH|].
  constructor; [exact IHi|]. apply Forall_app. split; [|exact Hge].
  eapply Forall_impl; [|exact Hrest]. intros a ->. lia.
Qed.

(** ** [to_message] *)
Definition class_of_code (t : Z) : option mclass := find (fun c => sc_code (schema_of c) =? t) all_classes.

Lemma to_message_list l :
  to_message (VList l) =
  match l with
  | [] => Raise IndexError
  | h :: _ => match as_int h with
              | None => Raise (TypeError "invalid message type, expected an integer")
              | Some i => match class_of_code (pyint_Z i) with
                          | Some c => parse_of c l
                          | None => Raise (ValueError ["unknown message type"])
                          end
              end
  end.
Proof.
  destruct l as [|h r]; [reflexivity|]. unfold to_message, msg_at. cbn [nth_error bind].
  destruct (as_int h) as [i|]; [|reflexivity].
  unfold class_of_code, all_classes. cbn [find schema_of sc_code].
  generalize (pyint_Z i) as t. intros t.
  repeat match goal with
  | |- (if t =? ?T then _ else _) = _ => let T' := eval cbv in T in change T with T';
         destruct (Z.eqb_spec t T') as [->|?]; [reflexivity|]
  end.
  repeat match goal with
  | H : t <> ?T |- context [?T =? t] =>
      replace (T =? t) with false by (symmetry; apply Z.eqb_neq; congruence)
  end.
  reflexivity.
Qed.

Lemma class_of_code_some t c : class_of_code t = Some c <-> sc_code (schema_of c) = t.
Proof.
  unfold class_of_code. split.
  - intros H. apply find_some in H. destruct H as [_ H]. apply Z.eqb_eq in H. exact H.
  - intros <-. destruct c; reflexivity.
Qed.

Lemma all_classes_complete c : In c all_classes.
Proof. destruct c; cbn; tauto. Qed.

Lemma py_eq_as_int h i z : as_int h = Some i -> py_eq_int h z = (pyint_Z i =? z).
Proof. destruct h; try discriminate; cbn; intros H; injection H as <-; reflexivity. Qed.

Lemma message_TYPE_code m : message_TYPE m = sc_code (schema_of (class_of m)).
Proof. destruct m; reflexivity. Qed.

Lemma to_message_ok v m : to_message v = Ok m ->
  exists h r i, v = VList (h :: r) /\ as_int h = Some i /\ pyint_Z i = sc_code (schema_of (class_of m))
                /\ parse_of (class_of m) (h :: r) = Ok m.
Proof.
  destruct v; try discriminate. rewrite to_message_list. destruct l as [|h r]; [discriminate|].
  destruct (as_int h) as [i|] eqn:Ei; [|discriminate].
  destruct (class_of_code (pyint_Z i)) as [c|] eqn:Ec; [|discriminate].
  intros H. apply class_of_code_some in Ec. destruct (parse_reads _ _ _ H) as (Hc & _). subst c.
  exists h, r, i. auto.
Qed.

Lemma to_message_parse c l h r i : l = h :: r -> as_int h = Some i -> pyint_Z i = sc_code (schema_of c) ->
  to_message (VList l) = parse_of c l.
Proof.
  intros -> Hi Hc. rewrite to_message_list, Hi.
  replace (class_of_code (pyint_Z i)) with (Some c); [reflexivity|].
  symmetry. apply class_of_code_some. auto.
Qed.

(** ** Injectivity of the attribute view *)
Lemma pyint_val_inj a b : pyint_val a = pyint_val b -> a = b.
Proof. destruct a, b; cbn; congruence. Qed.
Lemma ostr_inj a b : ostr a = ostr b -> a = b.
Proof. destruct a, b; cbn; congruence. Qed.
Lemma olist_inj a b : olist a = olist b -> a = b.
Proof. destruct a, b; cbn; congruence. Qed.
Lemma odict_inj a b : odict a = odict b -> a = b.
Proof. destruct a, b; cbn; congruence. Qed.

Lemma attrs_inj m1 m2 :
  class_of m1 = class_of m2 -> payload_of m1 = no_payload -> payload_of m2 = no_payload ->
  attrs m1 = attrs m2 -> m1 = m2.
Proof.
  destruct m1 as [[]|[]|[]|[]|[]|[]|[]|[]|[]|[]|[]|[]|[]|[]|[]|[]|[]|[]|[]|[]|[]|[]|[]|[]];
  destruct m2 as [[]|[]|[]|[]|[]|[]|[]|[]|[]|[]|[]|[]|[]|[]|[]|[]|[]|[]|[]|[]|[]|[]|[]|[]];
  intros Hc H1 H2 Ha; try discriminate Hc; clear Hc;
  cbn in H1, H2; subst; cbn in Ha; injection Ha; intros;
  repeat match goal with
  | H : pyint_val _ = pyint_val _ |- _ => apply pyint_val_inj in H
  | H : ostr _ = ostr _ |- _ => apply ostr_inj in H
  | H : olist _ = olist _ |- _ => apply olist_inj in H
  | H : odict _ = odict _ |- _ => apply odict_inj in H
  end; subst; reflexivity.
Qed.
