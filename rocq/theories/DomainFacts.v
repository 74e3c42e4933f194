(** * DomainFacts: what a decoder produces, its encoder accepts. *)
From Coq Require Import String Ascii List ZArith Bool Lia.
From Verif Require Import PyBase DictFacts Rawsocket BitFacts Encoding EncodingFacts Utf8 Utf8Facts CodecBase Serializer SerializerFacts SpecCodec CodecFacts
  MsgPack MsgPackFacts Cbor CborFacts Json JsonFacts Float FloatFacts Codecs.
Import ListNotations.
Local Open Scope Z_scope.

(** ** Building dicts *)
Lemma vset_keys k x d : map fst (vset k x d) = map fst d \/
  map fst (vset k x d) = map fst d ++ [k] /\ forall k', In k' (map fst d) -> key_eqb k k' = false.
Proof.
  unfold vset. induction d as [|[k' x'] d IH]; cbn [dset map fst app]; [right; split; [reflexivity|intros ? []]|].
  destruct (key_eqb k k') eqn:E; cbn [map fst]; [auto|]. destruct IH as [->|[-> IH]]; [auto|].
  right. split; [reflexivity|]. intros q [<-|J]; auto.
Qed.
Lemma distinct_snoc ks k : distinct_keys ks -> (forall k', In k' ks -> key_eqb k k' = false) -> distinct_keys (ks ++ [k]).
Proof.
  unfold distinct_keys. induction 1 as [|x l A B IH]; cbn [app]; intros H; [constructor; constructor|]. constructor.
  - apply Forall_app. split; [exact A|]. constructor; [|constructor]. apply H. left; reflexivity.
  - apply IH. intros; apply H; right; assumption.
Qed.
Lemma vset_distinct k x d : distinct_keys (map fst d) -> distinct_keys (map fst (vset k x d)).
Proof. intros H. destruct (vset_keys k x d) as [->|[-> N]]; [exact H|apply distinct_snoc; assumption]. Qed.
Lemma vset_Forall (P : val -> Prop) k x d : P k -> Forall P (map fst d) -> Forall P (map fst (vset k x d)).
Proof. intros K H. destruct (vset_keys k x d) as [->|[-> N]]; [exact H|apply Forall_app; auto]. Qed.
Lemma vset_length k x d : (length (vset k x d) <= S (length d))%nat.
Proof. rewrite <- (map_length fst), <- (map_length fst d). destruct (vset_keys k x d) as [->|[-> _]]; rewrite ?app_length; cbn; lia. Qed.
Lemma text_key_refl k : text_key k -> key_eqb k k = true.
Proof. destruct k; cbn; try contradiction; intros _; [apply String.eqb_refl|apply bytes_eqb_eq; reflexivity]. Qed.
Lemma distinct_NoDup ks : Forall text_key ks -> distinct_keys ks -> NoDup ks.
Proof.
  unfold distinct_keys. intros T. induction 1 as [|x l A B IH]; [constructor|]. inversion T; subst. constructor; [|auto].
  intros J. rewrite Forall_forall in A. specialize (A x J). rewrite text_key_refl in A by assumption. discriminate.
Qed.

(** ** MsgPack *)
Definition mp_here (v : val) : Prop := match v with VOther _ _ => True | _ => msgpack_here v end.
Definition mp_sat (x : res (val * bytes)) : Prop := forall v r, x = Ok (v, r) -> everywhere mp_here v.

Lemma mp_raw_length lim n b x r : mp_raw lim n b = Ok (x, r) -> zlen x = Z.max 0 n.
Proof. unfold mp_raw. destruct (lim <? n); [discriminate|]. intros H. apply take_inv in H. unfold zlen. lia. Qed.
Lemma mp_str_sat lim n b : n < 2 ^ 32 -> mp_sat (mp_str lim n b).
Proof.
  intros N v r. unfold mp_str. destruct (mp_raw lim n b) as [[x q]|e] eqn:E; cbn [bind]; [|discriminate].
  destruct (utf8_valid x) eqn:U; [|discriminate]. intros [= <- _]. apply mp_raw_length in E. split; [|exact I]. split; cbn [python_value].
  - rewrite encode_decode_str. apply utf8_valid_str. exact U.
  - split; [unfold unicode; rewrite encode_decode_str; exact U|]. rewrite <- encode_str_length, encode_decode_str. fold (zlen x). lia.
Qed.
Lemma mp_bin_sat lim n b : n < 2 ^ 32 -> mp_sat (mp_bin lim n b).
Proof.
  intros N v r. unfold mp_bin. destruct (mp_raw lim n b) as [[x q]|e] eqn:E; cbn [bind]; [|discriminate].
  intros [= <- _]. apply mp_raw_length in E. split; [|exact I]. split; [exact I|]. fold (zlen x). lia.
Qed.
Lemma mp_ext_sat lim n b : mp_sat (mp_ext lim n b).
Proof.
  intros v r. unfold mp_ext. destruct (take 1 b) as [[y q]|e]; cbn [bind]; [|discriminate]. destruct (mp_raw lim n q) as [[x q']|e]; cbn [bind]; [|discriminate].
  intros [= <- _]. split; exact I.
Qed.
Section MsgPackItems.
  Context (dec : bytes -> res (val * bytes)) (DS : forall b, mp_sat (dec b)).
  Lemma mp_items_sat n : forall b l r, mp_items dec n b = Ok (l, r) -> length l = n /\ Forall (everywhere mp_here) l.
  Proof.
    induction n as [|n IH]; intros b l r; cbn [mp_items]; [intros [= <- _]; auto|].
    destruct (dec b) as [[x q]|e] eqn:E; cbn [bind]; [|discriminate]. destruct (mp_items dec n q) as [[l' q']|e] eqn:J; cbn [bind]; [|discriminate].
    intros [= <- _]. destruct (IH _ _ _ J) as [A B]. split; [cbn; lia|]. constructor; [exact (DS _ _ _ E)|exact B].
  Qed.
  Lemma mp_pairs_sat n : forall d b d' r, mp_pairs dec n d b = Ok (d', r) ->
    Forall (fun kv => everywhere mp_here (fst kv) /\ everywhere mp_here (snd kv)) d -> distinct_keys (map fst d) -> Forall text_key (map fst d) ->
    (length d' <= n + length d)%nat /\ Forall (fun kv => everywhere mp_here (fst kv) /\ everywhere mp_here (snd kv)) d' /\
    distinct_keys (map fst d') /\ Forall text_key (map fst d').
  Proof.
    induction n as [|n IH]; intros d b d' r; cbn [mp_pairs]; [intros [= <- _]; auto|].
    destruct (dec b) as [[k q]|e] eqn:E; cbn [bind]; [|discriminate]. destruct (is_text k) eqn:T; [|discriminate].
    destruct (dec q) as [[x q']|e] eqn:E'; cbn [bind]; [|discriminate]. intros J A B C.
    assert (K : text_key k) by (destruct k; cbn in *; auto; discriminate).
    destruct (IH _ _ _ _ J) as (L & R); [apply vset_all; [exact (DS _ _ _ E)|exact (DS _ _ _ E')|exact A]|apply vset_distinct; exact B|apply vset_Forall; assumption|].
    split; [|exact R]. pose proof (vset_length k x d). lia.
  Qed.
  Lemma mp_array_sat lim n b : 0 <= n < 2 ^ 32 -> mp_sat (mp_array dec lim n b).
  Proof.
    intros N v r. unfold mp_array. destruct (lim <? n); [discriminate|]. destruct (mp_items dec (Z.to_nat n) b) as [[l q]|e] eqn:J; cbn [bind]; [|discriminate].
    intros [= <- _]. apply mp_items_sat in J. destruct J as [L F]. apply everywhere_list. split; [|exact F]. split; [exact I|]. lia.
  Qed.
  Lemma mp_map_sat lim n b : 0 <= n < 2 ^ 32 -> mp_sat (mp_map dec lim n b).
  Proof.
    intros N v r. unfold mp_map. destruct (lim / 2 <? n); [discriminate|]. destruct (mp_pairs dec (Z.to_nat n) [] b) as [[d q]|e] eqn:J; cbn [bind]; [|discriminate].
    intros [= <- _]. apply mp_pairs_sat in J; [|constructor|constructor|constructor]. destruct J as (L & F & D & T). cbn [length] in L. apply everywhere_dict. split; [|exact F].
    split; [exact I|]. split; [lia|]. split; [apply distinct_NoDup; assumption|exact T].
  Qed.
End MsgPackItems.
Lemma take_int_range n b z r : take_int n b = Ok (z, r) -> 0 <= z < 256 ^ Z.of_nat n.
Proof. pose proof (take_int_decodes n b) as T. intros E. rewrite E in T. apply T. Qed.
Lemma mp_sized_sat n r (k : Z -> bytes -> res (val * bytes)) : (forall z q, 0 <= z < 256 ^ Z.of_nat n -> mp_sat (k z q)) ->
  mp_sat (let! (z, r') := take_int n r in k z r').
Proof. intros K v q. destruct (take_int n r) as [[z r']|e] eqn:E; cbn [bind]; [|discriminate]. apply K. exact (take_int_range _ _ _ _ E). Qed.
Lemma mp_ok_sat v r : everywhere mp_here v -> mp_sat (Ok (v, r)).
Proof. intros H w q [= <- _]. exact H. Qed.
Lemma mp_raise_sat e : mp_sat (Raise e).
Proof. intros v r H. discriminate. Qed.
Lemma mp_int_here z : - 2 ^ 63 <= z < 2 ^ 64 -> everywhere mp_here (VInt z).
Proof. intros H. split; [|exact I]. split; [exact I|exact H]. Qed.

Lemma mp_nest_sat f x : mp_sat x -> mp_sat (mp_nest f x).
Proof. intros H. destruct f; [apply mp_raise_sat|exact H]. Qed.
Lemma mp_unpack_sat f lim : forall b, mp_sat (mp_unpack f lim b).
Proof.
  induction f as [|f IH]; intros b; [apply mp_raise_sat|]. destruct b as [|a r]; [apply mp_raise_sat|]. cbn [mp_unpack]. cbv zeta.
  pose proof (byte_range a) as A.
  destruct (Z.ltb_spec (byte_Z a) 128); [apply mp_ok_sat, mp_int_here; lia|].
  destruct (Z.ltb_spec (byte_Z a) 144); [apply mp_nest_sat, mp_map_sat; [exact IH|lia]|].
  destruct (Z.ltb_spec (byte_Z a) 160); [apply mp_nest_sat, mp_array_sat; [exact IH|lia]|].
  destruct (Z.ltb_spec (byte_Z a) 192); [apply mp_str_sat; lia|].
  destruct (byte_Z a =? 192); [apply mp_ok_sat; repeat split|].
  destruct (byte_Z a =? 193); [apply mp_raise_sat|].
  destruct (byte_Z a =? 194); [apply mp_ok_sat; repeat split|].
  destruct (byte_Z a =? 195); [apply mp_ok_sat; repeat split|].
  do 3 (destruct (_ =? _); [apply mp_sized_sat; intros z q [Z1 Z2]; apply mp_bin_sat; cbn in Z2; lia|]).
  do 3 (destruct (_ =? _); [apply mp_sized_sat; intros; apply mp_ext_sat|]).
  destruct (_ =? 202). { apply mp_sized_sat. intros z q Hz. apply mp_ok_sat. split; [|exact I]. split; [|exact I]. cbn [python_value]. apply widen_range; cbn in *; lia. }
  destruct (_ =? 203). { apply mp_sized_sat. intros z q Hz. apply mp_ok_sat. split; [|exact I]. split; [|exact I]. cbn in *. lia. }
  do 4 (destruct (_ =? _); [apply mp_sized_sat; intros z q [Z1 Z2]; apply mp_ok_sat, mp_int_here; cbn in Z2; lia|]).
  do 4 (destruct (_ =? _); [apply mp_sized_sat; intros z q Hz; apply mp_ok_sat, mp_int_here; unfold signed; cbn in Hz; match goal with |- context [if ?c then _ else _] => destruct c eqn:C end; cbn in *; lia|]).
  do 5 (destruct (_ =? _); [apply mp_ext_sat|]).
  do 3 (destruct (_ =? _); [apply mp_sized_sat; intros z q [Z1 Z2]; apply mp_str_sat; cbn in Z2; lia|]).
  do 2 (destruct (_ =? _); [apply mp_sized_sat; intros z q Hz; apply mp_nest_sat, mp_array_sat; [exact IH|cbn in Hz; lia]|]).
  do 2 (destruct (_ =? _); [apply mp_sized_sat; intros z q Hz; apply mp_nest_sat, mp_map_sat; [exact IH|cbn in Hz; lia]|]).
  apply mp_ok_sat, mp_int_here. lia.
Qed.

Lemma everywhere_and (P Q : val -> Prop) v : everywhere P v -> everywhere Q v -> everywhere (fun x => P x /\ Q x) v.
Proof.
  induction v as [| | | | | | |l IH|d IH] using val_nested; intros [A A'] [B B']; try (split; tauto).
  - apply everywhere_list. pose proof (proj1 (everywhere_list P l) (conj A A')) as [_ FA]. pose proof (proj1 (everywhere_list Q l) (conj B B')) as [_ FB].
    split; [tauto|]. rewrite Forall_forall in *. auto.
  - apply everywhere_dict. pose proof (proj1 (everywhere_dict P d) (conj A A')) as [_ FA]. pose proof (proj1 (everywhere_dict Q d) (conj B B')) as [_ FB].
    split; [tauto|]. rewrite Forall_forall in *. intros kv J. specialize (IH kv J). specialize (FA kv J). specialize (FB kv J). tauto.
Qed.

Lemma msgpack_loads_domain b v : loads msgpack b = Ok v -> plain_data v -> everywhere msgpack_here v.
Proof.
  cbn [loads msgpack]. unfold mp_loads. destruct (mp_unpack (S MP_STACK) (zlen b) b) as [[w [|x r]]|e] eqn:E; try discriminate.
  2:{ destruct e; discriminate. }
  intros [= ->] P. apply mp_unpack_sat in E. eapply everywhere_imp; [|exact (everywhere_and _ _ _ E P)].
  intros x [A B]. destruct x; try exact A. contradiction.
Qed.

(** ** JSON *)
Definition json_rest (v : val) : Prop :=
  match v with
  | VInt z => Z.abs z < 10 ^ 4300
  | VFloat f => is_nan f = true -> f = NAN
  | VStr s => json_text s
  | VBytes _ => False
  | VDict d => NoDup (map fst d) /\ Forall str_key (map fst d)
  | VOther _ _ => False
  | _ => True
  end.
Definition scalars (t : text) : Prop := forallb is_scalar t = true.
Definition js_sat (t : text) (x : res (val * text)) : Prop := forall v r, x = Ok (v, r) -> scalars t -> everywhere json_rest v /\ scalars r.

Lemma scalars_cons c t : scalars (c :: t) <-> is_scalar c = true /\ scalars t.
Proof. unfold scalars. cbn [forallb]. apply andb_true_iff. Qed.
Lemma scalars_app p t : scalars (p ++ t) -> scalars t.
Proof. unfold scalars. rewrite forallb_app, andb_true_iff. tauto. Qed.
Lemma scalars_ws t : scalars t -> scalars (skip_ws t).
Proof. induction t as [|c t IH]; [auto|]. cbn [skip_ws]. intros H. destruct (is_ws c); [|exact H]. apply scalars_cons in H. tauto. Qed.

(** The text of a string read from input without surrogates: code points, and an escaped pair is read as one. *)
Definition low_escape (t : text) : Prop :=
  exists g1 g2 g3 g4 r v, t = 92 :: 117 :: g1 :: g2 :: g3 :: g4 :: r /\ hex4 g1 g2 g3 g4 = Some v /\ is_low v = true.
Definition read_well (t : text) (x : res (text * text)) : Prop := forall s r, x = Ok (s, r) -> scalars t ->
  forallb is_code s = true /\ no_pair s = true /\ scalars r /\ match s with q :: _ => is_low q = true -> low_escape t | [] => True end.
Lemma prepend_well p t r x : is_code p = true -> (scalars t -> scalars r) -> read_well r x -> (is_high p = true -> ~ low_escape r) ->
  (scalars t -> is_low p = true -> low_escape t) -> read_well t (prepend p x).
Proof.
  intros C S X N L s r' E T. unfold prepend in E. destruct x as [[s' q]|e] eqn:Ex; cbn [bind] in E; [|discriminate]. injection E as <- <-.
  destruct (X s' q eq_refl (S T)) as (A & B & D & F). cbn [forallb]. rewrite C, A. split; [reflexivity|]. split; [|split; [exact D|exact (L T)]].
  apply no_pair_cons. split; [exact B|]. intros Hi. destruct s' as [|z s']; [exact I|]. destruct (is_low z); [|reflexivity]. destruct (N Hi (F eq_refl)).
Qed.
Lemma js_string_well n : forall t, (length t <= n)%nat -> read_well t (js_string t).
Proof.
  induction n as [|n IH]; intros t L; [destruct t; [intros ? ? [=]|cbn in L; lia]|].
  destruct t as [|c r]; [intros ? ? [=]|]. cbn [js_string length] in *.
  destruct (Z.eqb_spec c 34). { intros ? ? [= <- <-] H. apply scalars_cons in H. repeat split; tauto. }
  destruct (Z.eqb_spec c 92) as [->|C].
  - destruct r as [|e r1]; [intros ? ? [=]|]. cbn [length] in L. destruct (Z.eqb_spec e 117) as [->|E].
    + destruct r1 as [|h1 [|h2 [|h3 [|h4 r2]]]]; try (intros ? ? [=]; fail). cbn [length] in L.
      destruct (hex4 h1 h2 h3 h4) as [u|] eqn:U; [|intros ? ? [=]]. pose proof (hex4_range _ _ _ _ _ U) as Ru.
      assert (A : (is_high u = true -> ~ low_escape r2) -> read_well (92 :: 117 :: h1 :: h2 :: h3 :: h4 :: r2) (prepend u (js_string r2))).
      { intros N. eapply prepend_well; [unfold is_code; lia| |apply IH; lia|exact N|].
        - rewrite !scalars_cons. tauto.
        - intros _ Lo. exists h1, h2, h3, h4, r2, u. auto. }
      destruct (is_high u) eqn:Hi; [|apply A; discriminate].
      destruct r2 as [|b [|w [|g1 [|g2 [|g3 [|g4 r3]]]]]]; try (apply A; intros _ (? & ? & ? & ? & ? & ? & Q & _); discriminate Q). cbn [length] in L.
      destruct ((b =? 92) && (w =? 117)) eqn:BW.
      * destruct (hex4 g1 g2 g3 g4) as [v|] eqn:V; [|intros ? ? [=]]. destruct (is_low v) eqn:Lo.
        { eapply prepend_well with (r := r3); [unfold is_code, is_high, is_low in *; lia| |apply IH; lia| |].
          - rewrite !scalars_cons. tauto.
          - unfold is_high, is_low in *. lia.
          - unfold is_high, is_low in *. lia. }
        apply A. intros _ (? & ? & ? & ? & ? & v' & Q & V' & Lo'). injection Q as -> -> -> -> -> -> ->. congruence.
      * apply A. intros _ (? & ? & ? & ? & ? & v' & Q & _). injection Q as -> -> _ _ _ _ _. discriminate BW.
    + destruct (unescape e) as [p|] eqn:Un; [|intros ? ? [=]].
      assert (P : is_scalar p = true). { unfold unescape in Un. repeat match type of Un with context [if ?b then _ else _] => destruct b end; first [discriminate Un|injection Un as <-; reflexivity]. }
      eapply prepend_well; [apply scalar_is_code; exact P| |apply IH; lia| |].
      * rewrite !scalars_cons. tauto.
      * rewrite (scalar_not_high p P). discriminate.
      * rewrite (scalar_not_low p P). discriminate.
  - destruct (c <? 32); [intros ? ? [=]|]. intros s r' E S. pose proof (proj1 (scalars_cons _ _) S) as [P _]. revert s r' E S.
    change (read_well (c :: r) (prepend c (js_string r))). eapply prepend_well; [apply scalar_is_code; exact P| |apply IH; lia| |].
    + rewrite scalars_cons. tauto.
    + rewrite (scalar_not_high c P). discriminate.
    + rewrite (scalar_not_low c P). discriminate.
Qed.
Lemma js_string_rest t s r : js_string t = Ok (s, r) -> scalars t -> everywhere json_rest (str_val s) /\ scalars r.
Proof.
  intros E S. destruct (js_string_well (length t) t ltac:(lia) s r E S) as (A & B & C & _). split; [|exact C].
  split; [|exact I]. unfold str_val. cbn [json_rest]. unfold json_text. rewrite encode_decode_str, str_points_encode by exact A. exact B.
Qed.

Lemma dval_lt t : digits t -> forall acc, 0 <= acc -> dval acc t < (acc + 1) * 10 ^ zlen t.
Proof.
  induction 1 as [|c t C T IH]; intros acc A; [unfold zlen; cbn; lia|]. rewrite dval_cons.
  unfold is_digit in C. apply andb_true_iff in C. assert (48 <= c <= 57) by lia.
  unfold zlen in *. cbn [length]. rewrite Nat2Z.inj_succ, Z.pow_succ_r by lia.
  specialize (IH (10 * acc + (c - 48)) ltac:(lia)). assert (0 < 10 ^ Z.of_nat (length t)) by (apply Z.pow_pos_nonneg; lia). nia.
Qed.
Lemma pow10_mono a b : 0 <= a <= b -> 10 ^ a <= 10 ^ b.
Proof. intros. apply Z.pow_le_mono_r; lia. Qed.
Lemma inf_not_nan f : 0 <= f <= INF \/ 2 ^ 63 <= f <= 2 ^ 63 + INF -> is_nan f = false.
Proof.
  intros H. destruct (is_nan f) eqn:E; [|reflexivity]. exfalso. unfold is_nan in E. apply andb_true_iff in E. destruct E as [E M].
  apply Z.eqb_eq in E. apply negb_true_iff, Z.eqb_neq in M. destruct (f_fields f) as (_ & B & A). unfold f_abs in A. rewrite E in A. unfold INF in H.
  destruct H as [H|H]; [rewrite Z.mod_small in A by lia; lia|].
  rewrite <- (Z.mod_unique f (2 ^ 63) 1 (f - 2 ^ 63)) in A by lia. lia.
Qed.
Lemma parse_float_not_nan t : is_nan (parse_float t) = false.
Proof.
  apply inf_not_nan. unfold parse_float. destruct (js_number t) as [[n r]|] eqn:J; [|left; unfold INF; lia].
  assert (D : digits (n_int n)).
  { unfold js_number in J. destruct (js_sign t) as [s t1]. destruct (js_natural t1) as [[i t2]|] eqn:N; [|discriminate].
    destruct (js_frac t2). destruct (js_exp _). injection J as <- _. eapply js_natural_digits. exact N. }
  pose proof (js_frac_digits (n_rest n)) as F. destruct (js_frac (n_rest n)) as [f e]. cbn [fst] in F.
  pose proof (of_decimal_range (digits_value (n_int n ++ tl f)) (exp_value e - zlen (tl f))) as Rg.
  assert (0 <= digits_value (n_int n ++ tl f)). { apply dval_nonneg; [apply digits_app; auto|lia]. }
  specialize (Rg H). destruct (n_sign n); lia.
Qed.
Lemma json_rest_int z : Z.abs z < 10 ^ 4300 -> everywhere json_rest (VInt z).
Proof. intros H. split; [exact H|exact I]. Qed.
Lemma number_rest t n r v : js_number t = Some (n, r) -> number_value python_floats n = Ok v -> everywhere json_rest v.
Proof.
  intros J. unfold number_value. destruct (n_rest n) as [|x y].
  - destruct (Z.ltb_spec MAX_DIGITS (zlen (n_int n))) as [L|L]; [discriminate|]. cbv zeta. intros E. 
    assert (D : digits (n_int n)).
    { unfold js_number in J. destruct (js_sign t) as [s t1]. destruct (js_natural t1) as [[i t2]|] eqn:N; [|discriminate].
      destruct (js_frac t2). destruct (js_exp _). injection J as <- _. eapply js_natural_digits. exact N. }
    assert (0 <= digits_value (n_int n)) by (apply dval_nonneg; [exact D|lia]).
    pose proof (dval_lt _ D 0 ltac:(lia)) as B. rewrite Z.mul_1_l in B. change (dval 0 (n_int n)) with (digits_value (n_int n)) in B.
    assert (L0 : 0 <= zlen (n_int n)) by (unfold zlen; lia).
    pose proof (pow10_mono (zlen (n_int n)) 4300 (conj L0 L)) as P. assert (digits_value (n_int n) < 10 ^ 4300) as Q by (eapply Z.lt_le_trans; eassumption).
    assert (K : forall (P : Z) (s : text) z, 0 <= z -> z < P -> Z.abs (match s with [] => z | _ => - z end) < P) by (clear; intros P s z; destruct s; lia).
    specialize (K _ (n_sign n) _ H Q). injection E as <-. apply json_rest_int. exact K.
  - intros [= <-]. split; [|exact I]. cbn [json_rest float_of python_floats]. rewrite parse_float_not_nan. discriminate.
Qed.

Lemma js_word_sat t : js_sat t (js_word python_floats t).
Proof.
  intros v r. unfold js_word.
  repeat match goal with |- context [strip ?p t] => let E := fresh in destruct (strip p t) eqn:E; [intros Q; injection Q as <- <-; apply strip_suffix in E; rewrite E; intros SC; apply scalars_app in SC; (split; [|exact SC]); (split; [|exact I]); first [exact I|intros _; reflexivity|intros Q; vm_compute in Q; discriminate Q]|] end.
  destruct (js_number t) as [[n q]|] eqn:J; [|discriminate]. destruct (number_value python_floats n) as [w|e] eqn:E'; cbn [bind]; [|discriminate].
  intros [= <- <-] S. split; [eapply number_rest; eassumption|]. apply js_number_suffix in J. destruct J as [J _]. rewrite J in S. apply scalars_app in S. exact S.
Qed.
Lemma str_key_text k : str_key k -> text_key k.
Proof. destruct k; cbn; tauto. Qed.
Section JsonItems.
  Context (dec : text -> res (val * text)) (DS : forall t, js_sat t (dec t)).
  Lemma js_elems_sat f : forall t l r, js_elems dec f t = Ok (l, r) -> scalars t -> Forall (everywhere json_rest) l /\ scalars r.
  Proof.
    induction f as [|f IH]; intros t l r; cbn [js_elems]; [discriminate|]. destruct (dec t) as [[x q]|e] eqn:E; cbn [bind]; [|discriminate].
    pose proof (scalars_ws q) as W. destruct (skip_ws q) as [|c q']; [discriminate|]. destruct (c =? 93).
    - intros [= <- <-] S. destruct (DS _ _ _ E S) as [A B]. specialize (W B). apply scalars_cons in W. split; [constructor; [exact A|constructor]|tauto].
    - destruct (c =? 44); [|discriminate]. destruct (js_elems dec f (skip_ws q')) as [[l' q2]|e] eqn:J; cbn [bind]; [|discriminate].
      intros [= <- <-] S. destruct (DS _ _ _ E S) as [A B]. specialize (W B). apply scalars_cons in W.
      destruct (IH _ _ _ J (scalars_ws _ (proj2 W))). split; [constructor|]; assumption.
  Qed.
  Lemma js_members_sat f : forall d t d' r, js_members dec f d t = Ok (d', r) -> scalars t ->
    Forall (fun kv => everywhere json_rest (fst kv) /\ everywhere json_rest (snd kv)) d -> distinct_keys (map fst d) -> Forall str_key (map fst d) ->
    (Forall (fun kv => everywhere json_rest (fst kv) /\ everywhere json_rest (snd kv)) d' /\ distinct_keys (map fst d') /\ Forall str_key (map fst d')) /\ scalars r.
  Proof.
    induction f as [|f IH]; intros d t d' r; cbn [js_members]; [discriminate|]. destruct t as [|q t]; [discriminate|]. destruct (q =? 34); [|discriminate].
    destruct (js_string t) as [[k r1]|e] eqn:K; cbn [bind]; [|discriminate]. pose proof (scalars_ws r1) as W1. destruct (skip_ws r1) as [|c r2]; [discriminate|]. destruct (c =? 58); [|discriminate].
    destruct (dec (skip_ws r2)) as [[x r3]|e] eqn:E; cbn [bind]; [|discriminate]. pose proof (scalars_ws r3) as W3. destruct (skip_ws r3) as [|g r4]; [discriminate|].
    intros H S A B C. apply scalars_cons in S. destruct (js_string_rest _ _ _ K (proj2 S)) as [Kr S1]. specialize (W1 S1). apply scalars_cons in W1.
    destruct (DS _ _ _ E (scalars_ws _ (proj2 W1))) as [Xr S3]. specialize (W3 S3). apply scalars_cons in W3. destruct W3 as [_ S4].
    assert (A' : Forall (fun kv => everywhere json_rest (fst kv) /\ everywhere json_rest (snd kv)) (vset (str_val k) x d)).
    { apply vset_all; assumption. }
    assert (B' : distinct_keys (map fst (vset (str_val k) x d))) by (apply vset_distinct; exact B).
    assert (C' : Forall str_key (map fst (vset (str_val k) x d))) by (apply vset_Forall; [exact I|exact C]).
    destruct (g =? 125); [injection H as <- <-; auto|]. destruct (g =? 44); [|discriminate]. eapply IH; [exact H|apply scalars_ws; exact S4|assumption..].
  Qed.
End JsonItems.
Lemma js_dec_sat f : forall t, js_sat t (js_dec python_floats f t).
Proof.
  induction f as [|f IH]; intros t v r; [discriminate|]. cbn [js_dec]. destruct t as [|c t]; [discriminate|].
  destruct (c =? 34).
  { destruct (js_string t) as [[k r1]|e] eqn:K; cbn [bind]; [|discriminate]. intros [= <- <-] S. apply scalars_cons in S. eapply js_string_rest; [exact K|tauto]. }
  pose proof (scalars_ws t) as W.
  destruct (c =? 91).
  { destruct f as [|g]; [discriminate|]. cbn [js_nest]. set (f := S g) in *. destruct (skip_ws t) as [|e r1]; [discriminate|]. destruct (e =? 93).
    { intros [= <- <-] S. apply scalars_cons in S. specialize (W (proj2 S)). apply scalars_cons in W. split; [split; exact I|tauto]. }
    destruct (js_elems (js_dec python_floats f) (S (length t)) (e :: r1)) as [[l r2]|x] eqn:J; cbn [bind]; [|discriminate]. intros [= <- <-] S.
    apply scalars_cons in S. destruct (js_elems_sat _ IH _ _ _ _ J (W (proj2 S))) as [A B]. split; [|exact B].
    apply everywhere_list. split; [exact I|exact A]. }
  destruct (c =? 123).
  { destruct f as [|g]; [discriminate|]. cbn [js_nest]. set (f := S g) in *. destruct (skip_ws t) as [|e r1]; [discriminate|]. destruct (e =? 125).
    { intros [= <- <-] S. apply scalars_cons in S. specialize (W (proj2 S)). apply scalars_cons in W. split; [|tauto]. split; [split; constructor|exact I]. }
    destruct (js_members (js_dec python_floats f) (S (length t)) [] (e :: r1)) as [[d r2]|x] eqn:J; cbn [bind]; [|discriminate]. intros [= <- <-] S. apply scalars_cons in S.
    eapply js_members_sat in J; [|exact IH|exact (W (proj2 S))|constructor|constructor|constructor]. destruct J as ((A & B & C) & Sr). split; [|exact Sr].
    apply everywhere_dict. split; [|exact A].
    split; [|exact C]. apply distinct_NoDup; [|exact B]. eapply Forall_impl; [|exact C]. apply str_key_text. }
  apply js_word_sat.
Qed.
Lemma json_loads_domain b v : loads python_json b = Ok v -> utf8_valid b = true -> json_value v.
Proof.
  cbn [loads python_json json]. intros H U. destruct (js_loads_total python_floats python_floats_bounded b) as [(w & E & P)|(m & E)]; rewrite E in H; try discriminate.
  injection H as ->. unfold js_loads, js_decode in E. unfold utf8_valid in U. destruct (utf8_decode b) as [t|] eqn:D0; [|discriminate]. rewrite (utf8_str_points _ _ D0) in E.
  destruct (js_dec python_floats (S (length t)) (skip_ws t)) as [[w r]|e] eqn:D; cbn [bind] in E; [|discriminate]. destruct (skip_ws r); [|discriminate].
  injection E as ->. apply utf8_encode_decode in D0. exact (everywhere_and _ _ _ P (proj1 (js_dec_sat _ _ _ _ D (scalars_ws _ (proj2 D0))))).
Qed.

(** ** CBOR *)
Section CborDomain.
  Context (N : nat).
  Definition cb_rest (v : val) : Prop :=
    match v with
    | VInt z => Z.log2 (Z.abs z) <= 8 * Z.of_nat N + 64
    | VStr s => unicode s /\ (String.length s <= N)%nat
    | VBytes b => (length b <= N)%nat
    | VList l => (length l <= N)%nat
    | VDict d => (length d <= N)%nat /\ distinct_keys (map fst d) /\ Forall scalar_key (map fst d)
    | _ => True
    end.
  Definition cb_sat (b : bytes) (x : res (val * bytes)) : Prop := forall v r, x = Ok (v, r) -> (length r < length b)%nat /\ everywhere cb_rest v.

  Lemma take_length n b x r : take n b = Ok (x, r) -> (length x + length r = length b)%nat.
  Proof. intros H. apply take_inv in H. destruct H as [-> _]. rewrite app_length. reflexivity. Qed.
  Lemma cb_len_rest sub b o r : cb_len sub b = Ok (o, r) -> (length r <= length b)%nat.
  Proof. intros H. pose proof (cb_len_cb sub b) as C. rewrite H in C. exact C. Qed.
  Lemma cb_len_range sub b z r : 0 <= sub < 32 -> cb_len sub b = Ok (Some z, r) -> 0 <= z < 2 ^ 64.
  Proof.
    intros S. unfold cb_len. destruct (Z.ltb_spec sub 24); [intros E; assert (z = sub) by congruence; lia|].
    repeat (destruct (sub =? _); [match goal with |- context [take_int ?n b] => destruct (take_int n b) as [[y q]|e] eqn:T; cbn [bind]; [|discriminate];
      apply take_int_range in T; intros E; assert (z = y) by congruence; subst y; cbn in T; lia end|]).
    destruct (sub =? 31); discriminate.
  Qed.
  Lemma cb_uint_rest sub b z r : 0 <= sub < 32 -> cb_uint sub b = Ok (z, r) -> (length r <= length b)%nat /\ 0 <= z < 2 ^ 64.
  Proof.
    intros S. unfold cb_uint. destruct (cb_len sub b) as [[o q]|e] eqn:E; cbn [bind]; [|discriminate]. destruct o as [y|]; [|discriminate].
    intros [= -> ->]. split; [exact (cb_len_rest _ _ _ _ E)|exact (cb_len_range _ _ _ _ S E)].
  Qed.
  Lemma byte_sub a : 0 <= byte_Z a mod 32 < 32.
  Proof. apply Z.mod_pos_bound. lia. Qed.
  Lemma cb_chunks_rest f major : forall b x r, cb_chunks f major b = Ok (x, r) -> (length x + length r < length b)%nat.
  Proof.
    induction f as [|f IH]; intros b x r; cbn [cb_chunks]; [discriminate|]. destruct b as [|a b]; [discriminate|]. cbv zeta. cbn [length].
    destruct (byte_Z a =? 255); [intros [= <- <-]; cbn; lia|]. destruct (_ =? major); [|discriminate].
    destruct (cb_uint _ b) as [[z r2]|e] eqn:U; cbn [bind]; [|discriminate]. apply cb_uint_rest in U; [|apply byte_sub].
    destruct (take (Z.to_nat z) r2) as [[y r3]|e] eqn:T; cbn [bind]; [|discriminate]. apply take_length in T.
    destruct (_ && _); [discriminate|]. destruct (cb_chunks f major r3) as [[w r4]|e] eqn:C; cbn [bind]; [|discriminate].
    intros [= <- <-]. apply IH in C. rewrite app_length. lia.
  Qed.
  Lemma cb_string_rest f major sub b x r : cb_string f major sub b = Ok (x, r) -> (length x + length r <= length b)%nat.
  Proof.
    unfold cb_string. destruct (cb_len sub b) as [[o q]|e] eqn:E; cbn [bind]; [|discriminate]. apply cb_len_rest in E. destruct o as [z|]; intros T.
    - apply take_length in T. lia.
    - apply cb_chunks_rest in T. lia.
  Qed.

  Section CborItems.
    Context (dec : bytes -> res (val * bytes)) (DS : forall b, (length b <= N)%nat -> cb_sat b (dec b)).
    Definition cb_pair (kv : val * val) := everywhere cb_rest (fst kv) /\ everywhere cb_rest (snd kv).
    Lemma cb_items_rest n : forall b l r, (length b <= N)%nat -> mp_items dec n b = Ok (l, r) ->
      (length l + length r <= length b)%nat /\ Forall (everywhere cb_rest) l.
    Proof.
      induction n as [|n IH]; intros b l r L; cbn [mp_items]; [intros [= <- <-]; cbn; auto|].
      destruct (dec b) as [[x q]|e] eqn:E; cbn [bind]; [|discriminate]. destruct (DS b L _ _ E) as [Lq Hx].
      destruct (mp_items dec n q) as [[l' q']|e] eqn:J; cbn [bind]; [|discriminate].
      intros [= <- <-]. apply IH in J; [|lia]. cbn [length]. destruct J as [A B]. split; [lia|constructor; assumption].
    Qed.
    Lemma cb_items_break_rest f : forall b l r, (length b <= N)%nat -> cb_items_break dec f b = Ok (l, r) ->
      (length l + length r <= length b)%nat /\ Forall (everywhere cb_rest) l.
    Proof.
      induction f as [|f IH]; intros b l r L; cbn [cb_items_break]; [discriminate|]. destruct b as [|a b]; [discriminate|].
      destruct (byte_Z a =? 255); [intros [= <- <-]; cbn; auto|].
      destruct (dec (a :: b)) as [[x q]|e] eqn:E; cbn [bind]; [|discriminate]. destruct (DS _ L _ _ E) as [Lq Hx].
      destruct (cb_items_break dec f q) as [[l' q']|e] eqn:J; cbn [bind]; [|discriminate].
      intros [= <- <-]. apply IH in J; [|lia]. cbn [length] in *. destruct J as [A B]. split; [lia|constructor; assumption].
    Qed.
    Definition cb_dict (d : dict) := Forall cb_pair d /\ distinct_keys (map fst d) /\ Forall scalar_key (map fst d).
    Lemma cb_dict_vset k x d : everywhere cb_rest k -> everywhere cb_rest x -> hashable k = true -> cb_dict d -> cb_dict (vset k x d).
    Proof.
      intros K X H (A & B & C). split; [apply vset_all; assumption|]. split; [apply vset_distinct; exact B|]. apply vset_Forall; [|exact C].
      destruct k; cbn in *; auto; discriminate.
    Qed.
    Lemma cb_pairs_rest n : forall d b d' r, (length b <= N)%nat -> cb_pairs dec n d b = Ok (d', r) -> cb_dict d ->
      (length d' + length r <= length d + length b)%nat /\ cb_dict d'.
    Proof.
      induction n as [|n IH]; intros d b d' r L; cbn [cb_pairs]; [intros [= <- <-] ?; split; [lia|assumption]|].
      destruct (dec b) as [[k q]|e] eqn:E; cbn [bind]; [|discriminate]. destruct (DS b L _ _ E) as [Lq Hk].
      destruct (dec q) as [[x q']|e] eqn:E'; cbn [bind]; [|discriminate]. destruct (DS q ltac:(lia) _ _ E') as [Lq' Hx].
      destruct (hashable k) eqn:H; [|discriminate]. intros J D. apply IH in J; [|lia|apply cb_dict_vset; assumption].
      destruct J as [J1 J2]. split; [|exact J2]. pose proof (vset_length k x d). lia.
    Qed.
    Lemma cb_pairs_break_rest f : forall d b d' r, (length b <= N)%nat -> cb_pairs_break dec f d b = Ok (d', r) -> cb_dict d ->
      (length d' + length r <= length d + length b)%nat /\ cb_dict d'.
    Proof.
      induction f as [|f IH]; intros d b d' r L; cbn [cb_pairs_break]; [discriminate|]. destruct b as [|a b]; [discriminate|].
      destruct (byte_Z a =? 255); [intros [= <- <-] ?; split; [cbn; lia|assumption]|].
      destruct (dec (a :: b)) as [[k q]|e] eqn:E; cbn [bind]; [|discriminate]. destruct (DS _ L _ _ E) as [Lq Hk].
      destruct (dec q) as [[x q']|e] eqn:E'; cbn [bind]; [|discriminate]. destruct (DS q ltac:(lia) _ _ E') as [Lq' Hx].
      destruct (hashable k) eqn:H; [|discriminate]. intros J D. apply IH in J; [|lia|apply cb_dict_vset; assumption].
      destruct J as [J1 J2]. split; [|exact J2]. pose proof (vset_length k x d). lia.
    Qed.
  End CborItems.

  Lemma log2_small z : 0 <= z < 2 ^ 64 -> Z.log2 z <= 64.
  Proof. intros H. destruct (Z.eq_dec z 0) as [->|]; [cbn; lia|]. assert (Z.log2 z < 64) by (apply Z.log2_lt_pow2; lia). lia. Qed.
  Lemma log2_bytes b : (length b <= N)%nat -> Z.log2 (Z.abs (of_be b)) <= 8 * Z.of_nat N + 64 /\ Z.log2 (Z.abs (- of_be b - 1)) <= 8 * Z.of_nat N + 64.
  Proof.
    intros L. pose proof (of_be_range b) as R. rewrite pow2 in R.
    assert (K : forall z, 0 <= z <= 2 ^ (8 * Z.of_nat (length b)) -> Z.log2 z <= 8 * Z.of_nat N + 64).
    { intros z Hz. apply Z.le_trans with (Z.log2 (2 ^ (8 * Z.of_nat (length b)))); [apply Z.log2_le_mono; lia|]. rewrite Z.log2_pow2 by lia. lia. }
    split; apply K; lia.
  Qed.
  Lemma cb_big_sat b c x neg : (length b < length c)%nat -> cb_sat b x -> cb_sat c (cb_big x neg).
  Proof.
    intros L H v r. unfold cb_big. destruct x as [[w q]|e]; cbn [bind]; [|discriminate]. destruct (H w q eq_refl) as [Lq Hw].
    destruct w; try discriminate. destruct b0 as [|a y]; [discriminate|]. intros E. injection E as <- <-. split; [lia|]. split; [|exact I].
    destruct Hw as [Hw _]. cbn [cb_rest] in *. destruct (log2_bytes _ Hw). destruct neg; assumption.
  Qed.
  Lemma cb_special_sat a sub r : cb_sat (a :: r) (cb_special sub r).
  Proof.
    intros v q. unfold cb_special. cbn [length].
    repeat (match goal with |- context [if ?c then _ else _] => destruct c end;
      [ first [ intros [= <- <-]; split; [lia|split; exact I]
              | destruct (take _ r) as [[y p]|e] eqn:T; cbn [bind]; [|discriminate]; apply take_length in T; intros [= <- <-]; split; [lia|split; exact I]
              | match goal with |- context [take_int ?n r] => pose proof (take_int_decodes n r) as T; destruct (take_int n r) as [[y p]|e] end; cbn [bind]; [|discriminate];
                intros [= <- <-]; split; [lia|split; exact I]
              | idtac ] | ]); try discriminate.
  Qed.

  Lemma cb_dec_sat f : forall b, (length b <= N)%nat -> cb_sat b (cb_dec f b).
  Proof.
    induction f as [|f IH]; intros b L v r; [discriminate|]. destruct b as [|a b]; [discriminate|]. cbn [cb_dec]. cbv zeta. cbn [length] in L. pose proof (byte_sub a) as BS.
    destruct (_ =? 0).
    { destruct (cb_uint _ b) as [[z q]|e] eqn:U; cbn [bind]; [|discriminate]. apply cb_uint_rest in U; [|exact BS]. intros [= <- <-]. cbn [length]. split; [lia|]. split; [|exact I].
      cbn [cb_rest]. rewrite Z.abs_eq by lia. pose proof (log2_small z). lia. }
    destruct (_ =? 1).
    { destruct (cb_uint _ b) as [[z q]|e] eqn:U; cbn [bind]; [|discriminate]. apply cb_uint_rest in U; [|exact BS]. intros [= <- <-]. cbn [length]. split; [lia|]. split; [|exact I].
      cbn [cb_rest]. replace (Z.abs (- z - 1)) with (z + 1) by lia.
      assert (Z.log2 (z + 1) <= Z.log2 (2 ^ 64)) by (apply Z.log2_le_mono; lia). rewrite Z.log2_pow2 in H by lia. lia. }
    destruct (_ =? 2).
    { destruct (cb_string _ 2 _ b) as [[x q]|e] eqn:U; cbn [bind]; [|discriminate]. apply cb_string_rest in U. intros [= <- <-]. cbn [length]. split; [lia|]. split; [|exact I]. cbn. lia. }
    destruct (_ =? 3).
    { destruct (cb_string _ 3 _ b) as [[x q]|e] eqn:U; cbn [bind]; [|discriminate]. apply cb_string_rest in U. destruct (utf8_valid x) eqn:V; [|discriminate]. intros [= <- <-]. cbn [length]. split; [lia|]. split; [|exact I].
      cbn [cb_rest]. unfold unicode. rewrite <- encode_str_length, encode_decode_str. split; [exact V|lia]. }
    assert (DS : forall b, (length b <= N)%nat -> cb_sat b (cb_dec f b)) by exact IH.
    destruct (_ =? 4).
    { destruct (cb_len _ b) as [[o q]|e] eqn:U; cbn [bind]; [|discriminate]. apply cb_len_rest in U.
      assert (K : forall l q', match o with Some z => mp_items (cb_dec f) (Z.to_nat z) q | None => cb_items_break (cb_dec f) (S (length b)) q end = Ok (l, q') ->
        (length l + length q' <= length q)%nat /\ Forall (everywhere cb_rest) l).
      { intros l q'. destruct o; intros J; [eapply cb_items_rest in J|eapply cb_items_break_rest in J]; try exact J; try exact DS; lia. }
      destruct (match o with Some _ => _ | None => _ end) as [[l q']|e]; cbn [bind]; [|discriminate]. destruct (K _ _ eq_refl) as [K1 K2].
      intros [= <- <-]. cbn [length]. split; [lia|]. apply everywhere_list. split; [cbn; lia|exact K2]. }
    destruct (_ =? 5).
    { destruct (cb_len _ b) as [[o q]|e] eqn:U; cbn [bind]; [|discriminate]. apply cb_len_rest in U.
      assert (K : forall d q', match o with Some z => cb_pairs (cb_dec f) (Z.to_nat z) [] q | None => cb_pairs_break (cb_dec f) (S (length b)) [] q end = Ok (d, q') ->
        (length d + length q' <= length q)%nat /\ cb_dict d).
      { assert (D0 : cb_dict []) by (repeat split; constructor).
        intros d q'. destruct o; intros J; [eapply cb_pairs_rest in J|eapply cb_pairs_break_rest in J]; try exact J; try exact DS; try exact D0; lia. }
      destruct (match o with Some _ => _ | None => _ end) as [[d q']|e]; cbn [bind]; [|discriminate]. destruct (K _ _ eq_refl) as [K1 (K2 & K3 & K4)].
      intros [= <- <-]. cbn [length]. split; [lia|]. apply everywhere_dict. split; [|exact K2]. split; [lia|auto]. }
    destruct (_ =? 6); [|apply cb_special_sat].
    destruct (cb_uint _ b) as [[z q]|e] eqn:U; cbn [bind]; [|discriminate]. apply cb_uint_rest in U; [|exact BS]. destruct U as [U _].
    destruct (z =? 2); [|destruct (z =? 3); [|discriminate]]; apply (cb_big_sat q (a :: b)); try (cbn; lia); apply DS; lia.
  Qed.
End CborDomain.

Lemma cbor_loads_domain b v : loads cbor b = Ok v -> zlen b < 2 ^ 60 -> plain_data v -> usual_nan v -> cbor_value v.
Proof.
  cbn [loads cbor]. intros H L P C. destruct (cb_loads_total b) as [(w & E & V)|[(m & E)|E]]; rewrite E in H; try discriminate.
  injection H as ->. unfold cb_loads, cb_loads_within in E. destruct (cb_dec (S (length b)) b) as [[w r]|e] eqn:D; cbn [bind] in E; [|discriminate]. injection E as ->.
  apply (cb_dec_sat (length b)) in D; [|lia]. destruct D as [_ D].
  eapply everywhere_imp; [|exact (everywhere_and _ _ _ (everywhere_and _ _ _ V D) (everywhere_and _ _ _ P C))].
  intros x ((A1 & A2) & A3 & A4). split; [exact A1|]. unfold zlen in L. destruct x; cbn [cb_rest] in *; try exact I; try contradiction; try exact A4; try (split; [apply A2|]); try lia.
  destruct A2 as (A & B & F). split; [lia|auto].
Qed.

(** ** Between formats *)
Lemma NoDup_distinct ks : Forall text_key ks -> NoDup ks -> distinct_keys ks.
Proof.
  unfold distinct_keys. intros T. induction 1 as [|x l A B IH]; [constructor|]. inversion T; subst. constructor; [|auto].
  rewrite Forall_forall in *. intros y J. destruct (key_eqb y x) eqn:E; [|reflexivity]. apply text_key_eqb in E; [|auto]. subst y. contradiction.
Qed.
Lemma text_scalar k : text_key k -> scalar_key k.
Proof. destruct k; cbn; tauto. Qed.
Lemma portable_msgpack v : portable v -> msgpack_value v.
Proof.
  intros [P D]. split; [|exact D]. eapply everywhere_imp; [|exact P]. intros x [A B]. split; [exact A|]. destruct x; auto; try contradiction.
  destruct B as (B1 & B2 & B3). split; [exact B1|]. split; [exact B2|]. eapply Forall_impl; [|exact B3]. apply str_key_text.
Qed.
Lemma msgpack_cbor v : msgpack_value v -> usual_nan v -> cbor_value v.
Proof.
  intros [P _] N. eapply everywhere_imp; [|exact (everywhere_and _ _ _ P N)]. intros x [[A B] C]. split; [exact A|]. destruct x; auto; try contradiction; try lia.
  - assert (Z.log2 (Z.abs z) <= Z.log2 (2 ^ 64)) by (apply Z.log2_le_mono; lia). rewrite Z.log2_pow2 in H by lia. lia.
  - destruct B as [B1 B2]. split; [exact B1|lia].
  - destruct B as (B1 & B2 & B3). split; [lia|]. split; [apply NoDup_distinct; assumption|]. eapply Forall_impl; [|exact B3]. apply text_scalar.
Qed.
Lemma portable_nan v : portable v -> usual_nan v.
Proof. intros [P _]. eapply everywhere_imp; [|exact P]. intros x [A B]. destruct x; auto. Qed.
Lemma unicode_json s : unicode s -> json_text s.
Proof.
  unfold unicode, utf8_valid, json_text. destruct (utf8_decode (encode_str s)) as [ps|] eqn:E; [|discriminate]. intros _.
  rewrite (utf8_str_points _ _ E). apply utf8_encode_decode in E. apply scalar_no_pair, E.
Qed.
Lemma portable_json v : portable v -> json_value v.
Proof.
  intros [P _]. eapply everywhere_imp; [|exact P]. intros x [A B]. split; [exact A|]. destruct x; auto; try tauto.
  - apply Z.le_lt_trans with (10 ^ 20); [|apply Z.pow_lt_mono_r; lia]. lia.
  - apply unicode_json, B.
Qed.
