(** * HelpersFacts: proofs about Helpers.v. *)
From Coq Require Import String Ascii List ZArith Bool Lia.
From Verif Require Import PyBase Messages Validate SpecSchema SchemaFacts IdGen Encoding EncodingFacts Auth AuthFacts Joiner Broker BrokerFacts RoundTripFacts Helpers SpecHelpers.
Import ListNotations.
Local Open Scope Z_scope.

Lemma app_nil_str s : (s ++ "")%string = s.
Proof. induction s; cbn; congruence. Qed.
Lemma app_assoc_str a b c : ((a ++ b) ++ c)%string = (a ++ (b ++ c))%string.
Proof. induction a; cbn; congruence. Qed.

Lemma contains_refl s : contains s s.
Proof. exists ""%string, ""%string. cbn. symmetry. apply app_nil_str. Qed.
Lemma contains_l t a s : contains t s -> contains t (a ++ s)%string.
Proof. intros (x & y & ->). exists (a ++ x)%string, y. apply eq_sym, app_assoc_str. Qed.
Lemma contains_r t a s : contains t s -> contains t (s ++ a)%string.
Proof. intros (x & y & ->). exists x, (y ++ a)%string. rewrite !app_assoc_str. reflexivity. Qed.

(** ** util.py *)
Lemma text_spec cls what v m :
  ((exists s, v = VStr s) /\ text_or_raise cls what v m = Ok v) \/
  ((forall s, v <> VStr s) /\ exists s, text_or_raise cls what v m = Raise (LibError cls s) /\ contains m s).
Proof.
  unfold text_or_raise.
  destruct v; cbn [as_str];
    try (left; split; [eexists; reflexivity|reflexivity]); right; (split; [intros; discriminate|]); eexists; (split; [reflexivity|]);
    apply contains_l, contains_l, contains_refl.
Qed.

Lemma bad_key_none d : bad_key d = None <-> forall k v, In (k, v) d -> exists s, k = VStr s.
Proof.
  induction d as [|[k v] d IH]; cbn; [split; [intros _ k v []|reflexivity]|]. split.
  - intros H k' v' [E|E]; [inversion E; subst; destruct k'; try discriminate; eauto|].
    destruct (as_str k); [|discriminate]. exact (proj1 IH H _ _ E).
  - intros H. destruct (H k v (or_introl eq_refl)) as [s ->]. cbn. apply IH. intros; eapply H; right; eauto.
Qed.
Lemma details_ok v m f : validate_details_or_raise v m f = Ok v <->
  exists d, v = VDict d /\ forall k x, In (k, x) d -> exists s, k = VStr s.
Proof.
  unfold validate_details_or_raise. split.
  - destruct (as_dict v) as [d|] eqn:D; [|discriminate]. destruct v; try discriminate. injection D as ->.
    destruct (bad_key d) eqn:B; [discriminate|]. intros _. exists d. split; [reflexivity|]. apply bad_key_none, B.
  - intros (d & -> & A). cbn. apply bad_key_none in A. rewrite A. reflexivity.
Qed.
Lemma details_raise v m f : (validate_details_or_raise v m f = Ok v) \/
  exists s, validate_details_or_raise v m f = Raise (LibError "InvalidDetailsError" s) /\ contains m s.
Proof.
  unfold validate_details_or_raise. destruct (as_dict v) as [d|]; [destruct (bad_key d) as [k|]|].
  - right. eexists. split; [reflexivity|]. repeat (apply contains_l || apply contains_refl).
  - left. reflexivity.
  - right. eexists. split; [reflexivity|]. repeat (apply contains_l || apply contains_refl).
Qed.
Lemma bad_key_first d1 k x d2 : (forall k' v', In (k', v') d1 -> exists s, k' = VStr s) -> (forall s, k <> VStr s) -> bad_key (d1 ++ (k, x) :: d2) = Some k.
Proof.
  intros A N. induction d1 as [|[k' v'] d1 IH]; cbn.
  - destruct (as_str k) eqn:E; [|reflexivity]. destruct k; try discriminate. destruct (N s0). reflexivity.
  - destruct (A k' v' (or_introl eq_refl)) as [s ->]. cbn. apply IH. intros; eapply A; right; eauto.
Qed.
Lemma details_first_bad d1 k x d2 m f : (forall k' v', In (k', v') d1 -> exists s, k' = VStr s) -> (forall s, k <> VStr s) ->
  exists s, validate_details_or_raise (VDict (d1 ++ (k, x) :: d2)) m f = Raise (LibError "InvalidDetailsError" s) /\ contains (py_str k) s.
Proof.
  intros A N. unfold validate_details_or_raise. cbn [as_dict]. rewrite (bad_key_first _ _ x d2 A N). eexists. split; [reflexivity|].
  apply contains_l, contains_r, contains_refl.
Qed.

Lemma session_id_ok v m f : validate_session_id_or_raise v m f = Ok v <-> exists i, as_int v = Some i /\ 0 <= pyint_Z i <= 2 ^ 53.
Proof.
  unfold validate_session_id_or_raise. destruct (as_int v) as [i|]; [|split; [discriminate|intros (? & ? & _); discriminate]].
  split.
  - intros H. exists i. split; [reflexivity|]. destruct (Z.ltb_spec (pyint_Z i) 0); [discriminate|].
    destruct (Z.ltb_spec 9007199254740992 (pyint_Z i)); [discriminate|]. lia.
  - intros (j & E & B). injection E as <-. destruct (Z.ltb_spec (pyint_Z i) 0); [lia|].
    destruct (Z.ltb_spec 9007199254740992 (pyint_Z i)); [lia|]. reflexivity.
Qed.
Lemma session_id_raise v m f : (validate_session_id_or_raise v m f = Ok v) \/
  exists s, validate_session_id_or_raise v m f = Raise (LibError "ProtocolError" s) /\ contains m s.
Proof.
  unfold validate_session_id_or_raise. destruct (as_int v) as [i|]; [destruct (_ || _)|].
  - right. eexists. split; [reflexivity|]. repeat (apply contains_l || apply contains_refl).
  - left. reflexivity.
  - right. eexists. split; [reflexivity|]. repeat (apply contains_l || apply contains_refl).
Qed.

(** ** SessionDetails *)
Lemma opt_eqb_eq a b : opt_eqb a b = true <-> a = b.
Proof.
  destruct a, b; cbn; split; intros H; try congruence; try discriminate.
  - apply String.eqb_eq in H. congruence.
  - injection H as ->. apply String.eqb_refl.
Qed.
Lemma details_eq_iff d x : details_eq d x = true <->
  exists d', x = ODetails d' /\ pyint_Z (det_session d) = pyint_Z (det_session d') /\ det_realm d = det_realm d' /\
             det_authid d = det_authid d' /\ det_authrole d = det_authrole d'.
Proof.
  destruct x as [d'|v]; cbn; [|split; [discriminate|intros (? & ? & _); discriminate]].
  rewrite !andb_true_iff, Z.eqb_eq, String.eqb_eq, !opt_eqb_eq. split.
  - intros [[[A B] C] D]. exists d'. auto.
  - intros (e & E & A & B & C & D). injection E as <-. auto.
Qed.

(** ** ApplicationError *)
Lemma join_contains x l : In x l -> contains x (join l).
Proof.
  induction l as [|y l IH]; [intros []|]. intros [->|H].
  - destruct l; [apply contains_refl|]. cbn [join]. apply contains_r, contains_refl.
  - destruct l as [|z l]; [destruct H|]. change (join (y :: z :: l)) with (y ++ (", " ++ join (z :: l)))%string.
    apply contains_l, contains_l, IH, H.
Qed.
Lemma error_text str message args kwargs :
  let text := application_error_str str message args kwargs in
  (exists rest, text = (message ++ rest)%string /\
     (rest = ""%string <-> (args = None \/ args = Some []) /\ (kwargs = None \/ kwargs = Some []))) /\
  (forall l a, args = Some l -> In a l -> contains (str a) text) /\
  (forall d k v, kwargs = Some d -> In (k, v) d -> contains (str k ++ ("=" ++ str v))%string text).
Proof.
  cbn zeta. unfold application_error_str. split; [|split].
  - destruct args as [[|a l]|]; destruct kwargs as [[|k d]|];
      try (exists ""%string; rewrite app_nil_str; split; [reflexivity|]; tauto);
      try (eexists; split; [rewrite ?app_assoc_str; reflexivity|]; split; [intros H; discriminate H|intros [[H|H] [G|G]]; discriminate]).
  - intros l a -> I. destruct l as [|a0 l]; [destruct I|].
    assert (C : contains (str a) (message ++ (": " ++ join (map str (a0 :: l))))).
    { apply contains_l, contains_l, join_contains, in_map, I. }
    destruct kwargs as [[|k d]|]; try exact C. exact (contains_r _ _ _ C).
  - intros d k v -> I. destruct d as [|kv d]; [destruct I|]. apply contains_l, contains_l, join_contains.
    apply in_map_iff. exists (k, v). split; [reflexivity|exact I].
Qed.

(** ** utcnow *)
Lemma digits_length n z : String.length (digits n z) = n.
Proof.
  revert z. induction n as [|n IH]; intros z; cbn [digits]; [reflexivity|].
  assert (L : forall a b, String.length (a ++ b) = (String.length a + String.length b)%nat) by (induction a; cbn; auto).
  rewrite L, IH. cbn. lia.
Qed.
Lemma length_app a b : String.length (a ++ b) = (String.length a + String.length b)%nat.
Proof. induction a; cbn; auto. Qed.

Lemma compare_app a a' b b' : String.length a = String.length a' ->
  String.compare (a ++ b) (a' ++ b') = match String.compare a a' with Eq => String.compare b b' | c => c end.
Proof.
  revert a'. induction a as [|c a IH]; intros [|c' a'] L; try discriminate L; cbn; [reflexivity|].
  destruct (Ascii.compare c c'); [apply IH; injection L as ->; reflexivity|reflexivity|reflexivity].
Qed.
Lemma compare_refl s : String.compare s s = Eq.
Proof. induction s as [|c s IH]; cbn; [reflexivity|]. unfold Ascii.compare. rewrite N.compare_refl. exact IH. Qed.
Lemma compare_digit x y : 0 <= x < 10 -> 0 <= y < 10 ->
  Ascii.compare (ascii_of_nat (48 + Z.to_nat x)) (ascii_of_nat (48 + Z.to_nat y)) = (x ?= y).
Proof.
  intros X Y.
  assert (E : forall z, 0 <= z < 10 -> z = 0 \/ z = 1 \/ z = 2 \/ z = 3 \/ z = 4 \/ z = 5 \/ z = 6 \/ z = 7 \/ z = 8 \/ z = 9) by lia.
  destruct (E x X) as [->|[->|[->|[->|[->|[->|[->|[->|[->| ->]]]]]]]]]; destruct (E y Y) as [->|[->|[->|[->|[->|[->|[->|[->|[->| ->]]]]]]]]]; reflexivity.
Qed.
Lemma compare_digits n x y : 0 <= x < 10 ^ Z.of_nat n -> 0 <= y < 10 ^ Z.of_nat n ->
  String.compare (digits n x) (digits n y) = (x ?= y).
Proof.
  revert x y. induction n as [|n IH]; intros x y X Y.
  - cbn in *. replace x with 0 by lia. replace y with 0 by lia. reflexivity.
  - cbn [digits]. rewrite compare_app by (rewrite !digits_length; reflexivity).
    rewrite Nat2Z.inj_succ, Z.pow_succ_r in X, Y by lia.
    pose proof (Z.div_mod x 10 ltac:(lia)). pose proof (Z.div_mod y 10 ltac:(lia)).
    pose proof (Z.mod_pos_bound x 10 ltac:(lia)). pose proof (Z.mod_pos_bound y 10 ltac:(lia)).
    rewrite IH by (split; [apply Z.div_pos; lia|apply Z.div_lt_upper_bound; lia]).
    cbn [String.compare]. rewrite compare_digit by lia.
    destruct (Z.compare_spec (x / 10) (y / 10)); destruct (Z.compare_spec (x mod 10) (y mod 10)); symmetry;
      first [apply Z.compare_eq_iff; lia|apply Z.compare_lt_iff; lia|apply Z.compare_gt_iff; lia].
Qed.

Lemma substring_app a b : String.substring 0 (String.length a) (a ++ b) = a.
Proof. induction a as [|c a IH]; cbn; [destruct b; reflexivity|rewrite IH; reflexivity]. Qed.
Lemma but_last3_app a b : String.length b = 3%nat -> but_last3 (a ++ b) = a.
Proof.
  intros L. unfold but_last3. rewrite length_app, L. replace (String.length a + 3 - 3)%nat with (String.length a) by lia. apply substring_app.
Qed.
Lemma digits_split n z k : digits (n + k) z = (digits n (z / 10 ^ Z.of_nat k) ++ digits k z)%string.
Proof.
  revert z. induction k as [|k IH]; intros z.
  - rewrite Nat.add_0_r. cbn [digits]. change (10 ^ Z.of_nat 0) with 1. rewrite Z.div_1_r, app_nil_str. reflexivity.
  - rewrite Nat.add_succ_r. cbn [digits]. rewrite IH, app_assoc_str. f_equal. f_equal.
    rewrite Z.div_div by lia. rewrite Nat2Z.inj_succ, Z.pow_succ_r by lia. reflexivity.
Qed.

Lemma utcnow_text t : utcnow t =
  (digits 4 (t_year t) ++ ("-" ++ (digits 2 (t_month t) ++ ("-" ++ (digits 2 (t_day t) ++ ("T" ++ (digits 2 (t_hour t) ++ (":" ++
  (digits 2 (t_minute t) ++ (":" ++ (digits 2 (t_second t) ++ ("." ++ (digits 3 (t_micro t / 1000) ++ "Z")))))))))))))%string.
Proof.
  unfold utcnow, strftime. change 6%nat with (3 + 3)%nat. rewrite digits_split. change (10 ^ Z.of_nat 3) with 1000.
  rewrite <- !app_assoc_str. rewrite but_last3_app by apply digits_length. rewrite !app_assoc_str. reflexivity.
Qed.
Lemma utcnow_length t : String.length (utcnow t) = 24%nat.
Proof. rewrite utcnow_text. repeat rewrite length_app. rewrite !digits_length. reflexivity. Qed.

Lemma utcnow_order t t' : valid_time t -> valid_time t' -> String.compare (utcnow t) (utcnow t') = lex (instant t) (instant t').
Proof.
  intros (Y & M & D & H & I' & S' & U) (Y' & M' & D' & H' & I'' & S'' & U'). rewrite !utcnow_text. cbn [lex instant].
  assert (C : forall n x y, 0 <= x < 10 ^ Z.of_nat n -> 0 <= y < 10 ^ Z.of_nat n -> forall a b,
    String.compare (digits n x ++ a) (digits n y ++ b) = match x ?= y with Eq => String.compare a b | c => c end).
  { intros n x y X Z' a b. rewrite compare_app by (rewrite !digits_length; reflexivity). rewrite compare_digits by assumption. reflexivity. }
  assert (P : forall p a b, String.compare (p ++ a) (p ++ b) = String.compare a b).
  { intros p a b. rewrite compare_app by reflexivity. rewrite compare_refl. reflexivity. }
  pose proof (Z.div_pos (t_micro t) 1000). pose proof (Z.div_pos (t_micro t') 1000).
  pose proof (Z.div_lt_upper_bound (t_micro t) 1000 1000). pose proof (Z.div_lt_upper_bound (t_micro t') 1000 1000).
  repeat (rewrite C by (cbn; lia); match goal with |- context [match ?x ?= ?y with _ => _ end] => destruct (x ?= y); try reflexivity end; rewrite ?P).
Qed.

Lemma is_ascii_app a b : is_ascii (encode_str (a ++ b)) = is_ascii (encode_str a) && is_ascii (encode_str b).
Proof. unfold is_ascii, encode_str. induction a as [|c a IH]; cbn; [reflexivity|]. rewrite IH. apply andb_assoc. Qed.
Lemma digits_ascii n z : is_ascii (encode_str (digits n z)) = true.
Proof.
  revert z. induction n as [|n IH]; intros z; cbn [digits]; [reflexivity|]. rewrite is_ascii_app, IH.
  pose proof (Z.mod_pos_bound z 10 ltac:(lia)) as B. remember (z mod 10) as x. clear Heqx.
  assert (E : x = 0 \/ x = 1 \/ x = 2 \/ x = 3 \/ x = 4 \/ x = 5 \/ x = 6 \/ x = 7 \/ x = 8 \/ x = 9) by lia.
  destruct E as [->|[->|[->|[->|[->|[->|[->|[->|[->| ->]]]]]]]]]; reflexivity.
Qed.
Lemma utcnow_ascii t : is_ascii (encode_str (utcnow t)) = true.
Proof. rewrite utcnow_text. rewrite !is_ascii_app, !digits_ascii. reflexivity. Qed.

(** ** Key pair *)
Lemma keypair_works cr seed authid extra : length seed = 32%nat -> sget "pubkey" (extra_or_empty extra) = None ->
  let (pub, priv) := generate_cryptosign_keypair cr seed in
  (exists cl after, cryptosign_client cr authid priv extra = Ok (cl, after) /\ sget "pubkey" (cl_extra cl) = Some (VStr pub)) /\
  (ed25519_correct cr -> forall c raw, unhexlify_str c = Ok raw -> exists sig pk, sign_cryptosign_challenge cr (VStr c) seed = Ok sig /\
     unhexlify_str pub = Ok pk /\ verify_cryptosign_signature cr sig pk = Ok true).
Proof.
  intros L N. unfold generate_cryptosign_keypair. split.
  - unfold cryptosign_client. rewrite unhexlify_hexlify. cbn [bind]. rewrite L. cbn [Nat.eqb]. rewrite N.
    do 2 eexists. split; [reflexivity|]. cbn [cl_extra]. apply sget_sset_same.
  - intros E c raw H. destruct (cs_sign_verify cr seed c raw E L H) as (sig & S' & V). exists sig, (ed_public cr seed).
    split; [exact S'|]. split; [apply unhexlify_hexlify|exact V].
Qed.

(** ** Shared option dicts *)
Lemma with_serializer_twice d b : with_serializer (with_serializer d b) b = with_serializer d b.
Proof.
  unfold with_serializer. destruct (bp_serializer b) as [s|]; [|reflexivity].
  generalize X_PAYLOAD_SERIALIZER. intros k. induction d as [|[k' v] d IH]; cbn.
  - rewrite String.eqb_refl. reflexivity.
  - destruct k' as [| | | |k'| | | |]; cbn; try (f_equal; exact IH). destruct (String.eqb k k') eqn:E; cbn; rewrite E; [reflexivity|f_equal; exact IH].
Qed.

Lemma with_serializer_ext d b b' : bp_serializer b = bp_serializer b' -> with_serializer d b = with_serializer d b'.
Proof. intros E. unfold with_serializer. rewrite E. reflexivity. Qed.
Lemma marshal_ws m d b : bp_serializer b = bp_serializer (bin_of m) -> marshal (with_opts m (with_serializer d b)) = marshal (with_opts m d).
Proof.
  intros E. rewrite (with_serializer_ext d _ _ E). clear E b.
  destruct m as [m|m|m|m|m|m|m|m|m|m|m|m|m|m|m|m|m|m|m|m|m|m|m|m]; try reflexivity; cbn [with_opts bin_of];
    cbn [marshal]; unfold marshal_call, marshal_invocation, marshal_result, marshal_yield, ca_options, iv_details, re_details, yi_options;
    cbn [ca_opts ca_bin iv_dets iv_bin re_dets re_bin yi_opts yi_bin]; rewrite with_serializer_twice; reflexivity.
Qed.
Lemma marshal_object_same h a m : built_with m (dict_at h a) -> snd (marshal_object h (a, m)) = marshal m.
Proof.
  unfold marshal_object. cbn [fst snd]. destruct m as [m|m|m|m|m|m|m|m|m|m|m|m|m|m|m|m|m|m|m|m|m|m|m|m]; destruct m; cbn [built_with]; try intros <-; reflexivity.
Qed.
Lemma put_oob {A} (l : list A) n x : nth_error l n = None -> put l n x = l.
Proof. revert n. induction l as [|y l IH]; intros [|n] H; cbn in *; try reflexivity; [discriminate|]. rewrite IH; auto. Qed.
Lemma dict_at_put h a d : dict_at (put h a d) a = d \/ dict_at (put h a d) a = dict_at h a.
Proof.
  unfold dict_at. destruct (nth_error h a) as [x|] eqn:E.
  - left. rewrite (nth_put_same _ _ _ _ E). reflexivity.
  - right. rewrite (put_oob _ _ _ E), E. reflexivity.
Qed.
Lemma dict_at_put_other h a b d : b <> a -> dict_at (put h a d) b = dict_at h b.
Proof. intros N. unfold dict_at. rewrite nth_put_other by exact N. reflexivity. Qed.

Lemma marshal_objects_from h h' os : agreeing os ->
  (forall o, In o os -> dict_at h' (fst o) = dict_at h (fst o) \/ dict_at h' (fst o) = with_serializer (dict_at h (fst o)) (bin_of (snd o))) ->
  snd (marshal_objects h' os) = map (fun o => snd (marshal_object h o)) os.
Proof.
  revert h'. induction os as [|[a m] os IH]; intros h' A R; cbn [marshal_objects map]; [reflexivity|].
  unfold marshal_object at 1. cbn [fst snd].
  specialize (IH (put h' a (with_serializer (dict_at h' a) (bin_of m)))).
  destruct (marshal_objects (put h' a _) os) as [h2 ls]. cbn [snd] in *. f_equal.
  - unfold marshal_object. cbn [fst snd]. destruct (R (a, m) (or_introl eq_refl)) as [E|E]; cbn [fst snd] in E; rewrite E; [reflexivity|].
    apply marshal_ws. reflexivity.
  - apply IH; [intros o o' I I' E; apply A; [right; exact I|right; exact I'|exact E]|].
    intros [b m'] I. cbn [fst snd]. specialize (R (b, m') (or_intror I)) as Rb. cbn [fst snd] in Rb.
    destruct (Nat.eq_dec b a) as [->|N]; [|rewrite dict_at_put_other by exact N; exact Rb].
    specialize (R (a, m) (or_introl eq_refl)). cbn [fst snd] in R.
    assert (E : bp_serializer (bin_of m) = bp_serializer (bin_of m')).
    { exact (A (a, m) (a, m') (or_introl eq_refl) (or_intror I) eq_refl). }
    destruct (dict_at_put h' a (with_serializer (dict_at h' a) (bin_of m))) as [P|P]; rewrite P; [|exact Rb].
    rewrite (with_serializer_ext _ _ _ E).
    right. destruct Rb as [Q|Q]; rewrite Q; [reflexivity|apply with_serializer_twice].
Qed.
Lemma marshal_objects_pure h os : agreeing os -> snd (marshal_objects h os) = map (fun o => snd (marshal_object h o)) os.
Proof. intros A. apply marshal_objects_from; [exact A|]. intros o _. left. reflexivity. Qed.

Lemma ws_other d b k : k <> X_PAYLOAD_SERIALIZER -> sget k (with_serializer d b) = sget k d.
Proof. intros N. unfold with_serializer. destruct (bp_serializer b); [|reflexivity]. apply sget_sset_other, N. Qed.
Lemma marshal_objects_other h os a k : k <> X_PAYLOAD_SERIALIZER -> sget k (dict_at (fst (marshal_objects h os)) a) = sget k (dict_at h a).
Proof.
  intros N. revert h. induction os as [|[b m] os IH]; intros h; cbn [marshal_objects]; [reflexivity|].
  unfold marshal_object. cbn [fst snd]. specialize (IH (put h b (with_serializer (dict_at h b) (bin_of m)))).
  destruct (marshal_objects (put h b _) os) as [h2 ls]. cbn [fst] in *. rewrite IH. clear IH.
  destruct (Nat.eq_dec a b) as [->|M]; [|rewrite dict_at_put_other by exact M; reflexivity].
  destruct (dict_at_put h b (with_serializer (dict_at h b) (bin_of m))) as [P|P]; rewrite P; [apply ws_other, N|reflexivity].
Qed.
Lemma marshal_objects_untouched h os a : (forall o, In o os -> fst o = a -> bp_serializer (bin_of (snd o)) = None) ->
  dict_at (fst (marshal_objects h os)) a = dict_at h a.
Proof.
  revert h. induction os as [|[b m] os IH]; intros h A; cbn [marshal_objects]; [reflexivity|].
  unfold marshal_object. cbn [fst snd]. specialize (IH (put h b (with_serializer (dict_at h b) (bin_of m)))).
  destruct (marshal_objects (put h b _) os) as [h2 ls]. cbn [fst] in *. rewrite IH by (intros o I; apply A; right; exact I). clear IH.
  destruct (Nat.eq_dec a b) as [->|M]; [|rewrite dict_at_put_other by exact M; reflexivity].
  destruct (dict_at_put h b (with_serializer (dict_at h b) (bin_of m))) as [P|P]; rewrite P; [|reflexivity].
  specialize (A (b, m) (or_introl eq_refl) eq_refl). cbn in A. unfold with_serializer. rewrite A. reflexivity.
Qed.

Lemma session_id_values v m f : validate_session_id_or_raise v m f = Ok v <-> (exists z, v = VInt z /\ 0 <= z <= 2 ^ 53) \/ exists b, v = VBool b.
Proof.
  rewrite session_id_ok. split.
  - intros (i & E & B). destruct v; try discriminate; injection E as <-; cbn [pyint_Z] in B; eauto.
  - intros [(z & -> & B)|[b ->]]; eexists; (split; [reflexivity|]); [exact B|]. destruct b; cbn; lia.
Qed.
Lemma details_eq_equiv d d' d'' :
  details_eq d (ODetails d) = true /\
  details_eq d (ODetails d') = details_eq d' (ODetails d) /\
  (details_eq d (ODetails d') = true -> details_eq d' (ODetails d'') = true -> details_eq d (ODetails d'') = true).
Proof.
  split; [apply details_eq_iff; eauto 9|]. split.
  - apply eq_true_iff_eq. rewrite !details_eq_iff. split; intros (x & E & A & B & C & D); injection E as <-; eauto 9.
  - rewrite !details_eq_iff. intros (x & E & A & B & C & D) (x' & E' & A' & B' & C' & D'). injection E as <-. injection E' as <-.
    exists d''. repeat split; congruence.
Qed.
Lemma shared_dict_leaks : exists h o1 o2,
  bp_serializer (bin_of (snd o2)) = None /\ fst (marshal_object h o1) <> h /\
  snd (marshal_object (fst (marshal_object h o1)) o2) <> snd (marshal_object h o2).
Proof.
  exists [[]], (0%nat, Call (mkCall (PyInt 1) "p" None None [] (mkBin (Some 2) (Some []) true))),
    (0%nat, Publish (mkPublish (PyInt 1) "t" None None [])).
  split; [reflexivity|]. split; intros H; discriminate H.
Qed.

(** ** Any object as a message *)
Lemma sanity_iff v mn mx id name : sanity_check_object v mn mx id name = Ok tt <->
  exists h r, v = VList (h :: r) /\ (mn <= length (h :: r) <= mx)%nat /\ py_eq_int h id = true.
Proof.
  unfold sanity_check_object. destruct v as [| | | | | |l| |]; cbn [as_list];
    try (split; [discriminate|intros (h & r & H & _); discriminate]).
  unfold sanity_check. destruct (Nat.ltb_spec (length l) mn) as [A|A].
  { split; [discriminate|]. intros (h & r & H & B & _). injection H as ->. lia. }
  destruct (Nat.ltb_spec mx (length l)) as [B|B].
  { split; [discriminate|]. intros (h & r & H & C & _). injection H as ->. lia. }
  destruct l as [|h r]; cbn [msg_at nth_error bind].
  { split; [discriminate|]. intros (h & r & H & _). discriminate. }
  destruct (py_eq_int h id) eqn:E; cbn [negb].
  - split; [|reflexivity]. intros _. exists h, r. auto.
  - split; [discriminate|]. intros (h' & r' & H & _ & E'). injection H as -> ->. congruence.
Qed.
Lemma sanity_raises v mn mx id name e : sanity_check_object v mn mx id name = Raise e ->
  (exists s, e = ValueError [s]) \/ (e = IndexError /\ v = VList [] /\ mn = 0%nat).
Proof.
  unfold sanity_check_object, sanity_check. destruct (as_list v) as [l|] eqn:EL; [|intros H; injection H as <-; eauto].
  destruct v; try discriminate EL. injection EL as ->.
  destruct (Nat.ltb_spec (length l) mn) as [A|A]; [intros H; injection H as <-; eauto|].
  destruct (mx <? length l)%nat; [intros H; injection H as <-; eauto|].
  destruct l as [|h r]; cbn [msg_at nth_error bind].
  - intros H. injection H as <-. right. cbn in A. repeat split. lia.
  - destruct (py_eq_int h id); cbn [negb]; [discriminate|]. intros H. injection H as <-. eauto.
Qed.
Lemma contains_mid a t b : contains t (a ++ (t ++ b))%string.
Proof. exists a, b. reflexivity. Qed.
Lemma parse_object_iff c v :
  (exists m, parse_object (parse_of c) (sc_name (schema_of c)) v = Ok m) <-> exists l, v = VList l /\ conforms c l.
Proof.
  unfold parse_object. destruct v as [| | | | | |l| |]; cbn [as_list];
    try (split; [intros [m H]; discriminate|intros (l & H & _); discriminate]).
  rewrite parse_conforms_iff. split; [eauto|]. intros (l' & H & C). injection H as ->. exact C.
Qed.
Lemma parse_object_raises c v e : parse_object (parse_of c) (sc_name (schema_of c)) v = Raise e ->
  exists msgs, e = ValueError msgs /\ msgs <> [].
Proof.
  unfold parse_object. destruct (as_list v) as [l|]; [apply parse_raises|].
  intros H. injection H as <-. eexists. split; [reflexivity|discriminate].
Qed.
Lemma parse_object_other c v : (forall l, v <> VList l) -> exists s,
  parse_object (parse_of c) (sc_name (schema_of c)) v = Raise (ValueError [s]) /\
  contains (type_name v) s /\ contains (sc_name (schema_of c)) s.
Proof.
  intros N. unfold parse_object. destruct (as_list v) as [l|] eqn:E.
  { destruct v; try discriminate E. exfalso. eapply N. reflexivity. }
  eexists. split; [reflexivity|]. split; [apply contains_mid|].
  exists ("invalid message type " ++ type_name v ++ " for ")%string, ", type should be a list"%string.
  rewrite !app_assoc_str. reflexivity.
Qed.
