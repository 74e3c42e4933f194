(** * LimitFacts: the JSON and CBOR decoders when Python limits the nesting. *)
From Coq Require Import String Ascii List ZArith Bool Lia.
From Verif Require Import PyBase Rawsocket Encoding EncodingFacts Utf8 Utf8Facts CodecBase CodecFacts Messages Serializer SpecSchema SpecCodec MsgPack
  MsgPackFacts Json JsonFacts Cbor CborFacts Float FloatFacts Codecs CodecsFacts.
Import ListNotations.
Local Open Scope Z_scope.

(** Reading with less fuel gives the same or RecursionError. *)
Definition limited {A} (x y : res A) : Prop := x = Raise RecursionError \/ x = y.
Lemma limited_refl {A} (x : res A) : limited x x.
Proof. right. reflexivity. Qed.
Lemma limited_bind {A B} (x y : res A) (k k' : A -> res B) : limited x y -> (forall a, x = Ok a -> limited (k a) (k' a)) -> limited (bind x k) (bind y k').
Proof.
  intros [-> | ->] K; [left; reflexivity|]. destruct y as [a|e]; cbn [bind]; [apply K; reflexivity|apply limited_refl].
Qed.
Lemma limited_trans {A} (x y z : res A) : limited x y -> limited y z -> limited x z.
Proof. intros [-> | ->] H; [left; reflexivity|exact H]. Qed.

Lemma str_points_length b t : str_points b = Some t -> (length t <= length b)%nat.
Proof.
  intros H. apply encode_str_points in H. destruct H as [<- _]. induction t as [|p t IH]; [cbn; lia|]. unfold utf8_encode in *. cbn [flat_map length].
  rewrite app_length. assert (1 <= length (utf8_char p))%nat; [|lia]. unfold utf8_char. repeat match goal with |- context [if ?c then _ else _] => destruct c end; cbn; lia.
Qed.

Section JsonLimit.
  Context (fl : floats).
  Lemma js_elems_limited dec dec' : (forall t, limited (dec t) (dec' t)) -> forall n t, limited (js_elems dec n t) (js_elems dec' n t).
  Proof.
    intros D. induction n as [|n IH]; intros t; cbn [js_elems]; [apply limited_refl|]. apply limited_bind; [apply D|]. intros [x r] _.
    destruct (skip_ws r) as [|c r1]; [apply limited_refl|]. destruct (c =? 93); [apply limited_refl|]. destruct (c =? 44); [|apply limited_refl].
    apply limited_bind; [apply IH|]. intros [l r2] _. apply limited_refl.
  Qed.
  Lemma js_members_limited dec dec' : (forall t, limited (dec t) (dec' t)) -> forall n d t, limited (js_members dec n d t) (js_members dec' n d t).
  Proof.
    intros D. induction n as [|n IH]; intros d t; cbn [js_members]; [apply limited_refl|]. destruct t as [|q r]; [apply limited_refl|].
    destruct (q =? 34); [|apply limited_refl]. apply limited_bind; [apply limited_refl|]. intros [k r1] _.
    destruct (skip_ws r1) as [|c r2]; [apply limited_refl|]. destruct (c =? 58); [|apply limited_refl].
    apply limited_bind; [apply D|]. intros [x r3] _. destruct (skip_ws r3) as [|e r4]; [apply limited_refl|].
    destruct (e =? 125); [apply limited_refl|]. destruct (e =? 44); [apply IH|apply limited_refl].
  Qed.
  Lemma js_dec_limited f : forall f' t, (f <= f')%nat -> limited (js_dec fl f t) (js_dec fl f' t).
  Proof.
    induction f as [|f IH]; intros f' t F; [left; reflexivity|]. destruct f' as [|f']; [lia|].
    assert (D : forall t, limited (js_dec fl f t) (js_dec fl f' t)) by (intros; apply IH; lia). clear IH. cbn [js_dec].
    destruct t as [|c r]; [apply limited_refl|]. destruct (c =? 34); [apply limited_refl|].
    destruct (c =? 91).
    { destruct f as [|g]; [left; reflexivity|]. destruct f' as [|g']; [lia|]. cbn [js_nest]. set (f := S g) in *. set (f' := S g') in *.
      destruct (skip_ws r) as [|e r1]; [apply limited_refl|]. destruct (e =? 93); [apply limited_refl|].
      apply limited_bind; [apply js_elems_limited; exact D|]. intros [l r2] _. apply limited_refl. }
    destruct (c =? 123); [|apply limited_refl].
    destruct f as [|g]; [left; reflexivity|]. destruct f' as [|g']; [lia|]. cbn [js_nest]. set (f := S g) in *. set (f' := S g') in *.
    destruct (skip_ws r) as [|e r1]; [apply limited_refl|]. destruct (e =? 125); [apply limited_refl|].
    apply limited_bind; [apply js_members_limited; exact D|]. intros [l r2] _. apply limited_refl.
  Qed.
  Lemma js_within_mono b l l' : (l <= l')%nat -> limited (js_loads_within fl l b) (js_loads_within fl l' b).
  Proof.
    intros L. unfold js_loads_within. destruct (str_points b) as [t|]; [|apply limited_refl]. unfold js_decode.
    apply limited_bind; [apply js_dec_limited; lia|]. intros [v r] _. apply limited_refl.
  Qed.
  (** Without a limit nothing is too deep: enough fuel never changes the answer. *)
  Lemma js_loads_enough (B : floats_bounded fl) b l : (length b <= l)%nat -> js_loads_within fl l b = js_loads fl b.
  Proof.
    intros L. unfold js_loads_within, js_loads. destruct (str_points b) as [t|] eqn:U; [|reflexivity].
    assert (Lt : (length t <= l)%nat). { pose proof (str_points_length _ _ U). lia. }
    unfold js_decode. destruct (js_dec_limited (S (length t)) (S l) (skip_ws t) ltac:(lia)) as [E|E]; [|rewrite E; reflexivity]. exfalso.
    pose proof (skip_ws_length t) as W. pose proof (js_dec_total fl B (S (length t)) (skip_ws t) ltac:(lia)) as T. rewrite E in T. exact T.
  Qed.
  Lemma js_loads_limited (B : floats_bounded fl) b l : limited (js_loads_within fl l b) (js_loads fl b).
  Proof.
    rewrite <- (js_loads_enough B b (Nat.max l (length b))) by lia. apply js_within_mono. lia.
  Qed.

  (** What is read is nested no deeper than the limit. *)
  Definition shallow (f : nat) {A} (x : res (val * A)) : Prop := match x with Ok (v, _) => (levels v < f)%nat | Raise _ => True end.
  Lemma levels_list l n : Forall (fun x => levels x <= n)%nat l -> (levels (VList l) <= S n)%nat.
  Proof. intros H. cbn [levels]. apply le_n_S. induction H as [|x l X _ IH]; [lia|]. lia. Qed.
  Lemma levels_dict d n : Forall (fun kv => levels (fst kv) <= n /\ levels (snd kv) <= n)%nat d -> (levels (VDict d) <= S n)%nat.
  Proof. intros H. cbn [levels]. apply le_n_S. induction H as [|[k x] d X _ IH]; [lia|]. cbn [fst snd] in X. lia. Qed.
  Lemma vset_levels n k x d : (levels k <= n)%nat -> (levels x <= n)%nat -> Forall (fun kv => levels (fst kv) <= n /\ levels (snd kv) <= n)%nat d ->
    Forall (fun kv => levels (fst kv) <= n /\ levels (snd kv) <= n)%nat (vset k x d).
  Proof.
    intros K X. induction 1 as [|[k' y] d [Y1 Y2] Hd IH]; unfold vset; cbn [dset]; [repeat constructor; assumption|]. fold (vset k x d). cbn [fst snd] in *.
    destruct (key_eqb k k'); constructor; try (cbn [fst snd]; split; assumption); assumption.
  Qed.
  Lemma js_elems_shallow dec f : (forall t, shallow f (dec t)) -> forall n t l r, js_elems dec n t = Ok (l, r) -> Forall (fun x => levels x < f)%nat l.
  Proof.
    intros D. induction n as [|n IH]; intros t l r; cbn [js_elems]; [discriminate|]. specialize (D t). destruct (dec t) as [[x q]|e]; cbn [bind]; [|discriminate].
    destruct (skip_ws q) as [|c r1]; [discriminate|]. destruct (c =? 93); [intros [= <- _]; repeat constructor; exact D|].
    destruct (c =? 44); [|discriminate]. destruct (js_elems dec n (skip_ws r1)) as [[l' r2]|e] eqn:E; cbn [bind]; [|discriminate].
    intros [= <- _]. constructor; [exact D|]. eapply IH; exact E.
  Qed.
  Lemma js_members_shallow dec f : (forall t, shallow (S f) (dec t)) -> forall n d t d' r, js_members dec n d t = Ok (d', r) ->
    Forall (fun kv => levels (fst kv) <= f /\ levels (snd kv) <= f)%nat d -> Forall (fun kv => levels (fst kv) <= f /\ levels (snd kv) <= f)%nat d'.
  Proof.
    intros D. induction n as [|n IH]; intros d t d' r; cbn [js_members]; [discriminate|]. destruct t as [|q t]; [discriminate|].
    destruct (q =? 34); [|discriminate]. destruct (js_string t) as [[k r1]|e]; cbn [bind]; [|discriminate]. destruct (skip_ws r1) as [|c r2]; [discriminate|].
    destruct (c =? 58); [|discriminate]. specialize (D (skip_ws r2)). destruct (dec (skip_ws r2)) as [[x r3]|e]; cbn [bind]; [|discriminate]. cbn [shallow] in D.
    intros H F. assert (G : Forall (fun kv => levels (fst kv) <= f /\ levels (snd kv) <= f)%nat (vset (str_val k) x d)) by (apply vset_levels; [cbn; lia|lia|exact F]).
    revert H. destruct (skip_ws r3) as [|e r4]; [discriminate|]. destruct (e =? 125); [intros [= <- _]; exact G|]. destruct (e =? 44); [|discriminate].
    intros H. eapply IH; [exact H|exact G].
  Qed.
  Lemma js_word_shallow t : shallow 1 (js_word fl t).
  Proof.
    unfold js_word. repeat match goal with |- context [strip ?p ?q] => destruct (strip p q); [cbn; lia|] end.
    destruct (js_number t) as [[n q]|]; [|exact I]. unfold number_value. destruct (n_rest n); [destruct (MAX_DIGITS <? zlen (n_int n)); [exact I|]|]; cbn; lia.
  Qed.
  Lemma shallow_le f f' {A} (x : res (val * A)) : (f <= f')%nat -> shallow f x -> shallow f' x.
  Proof. destruct x as [[v r]|e]; cbn; [lia|auto]. Qed.
  Lemma js_dec_shallow f : forall t, shallow f (js_dec fl f t).
  Proof.
    induction f as [|f IH]; intros t; [exact I|]. cbn [js_dec]. destruct t as [|c r]; [exact I|].
    destruct (c =? 34); [destruct (js_string r) as [[k q]|e]; cbn; [lia|exact I]|].
    destruct (c =? 91).
    { destruct f as [|g]; [exact I|]. cbn [js_nest]. set (f := S g) in *. destruct (skip_ws r) as [|e r1]; [exact I|]. destruct (e =? 93); [cbn; lia|].
      destruct (js_elems (js_dec fl f) (S (length r)) (e :: r1)) as [[l r2]|x] eqn:E; cbn [bind]; [|exact I].
      apply (js_elems_shallow _ _ IH) in E. cbn [shallow]. apply le_n_S. unfold f. apply levels_list. eapply Forall_impl; [|exact E]. unfold f. cbn. lia. }
    destruct (c =? 123); [|eapply shallow_le; [|apply js_word_shallow]; lia].
    destruct f as [|g]; [exact I|]. cbn [js_nest]. set (f := S g) in *. destruct (skip_ws r) as [|e r1]; [exact I|]. destruct (e =? 125); [cbn; lia|].
    destruct (js_members (js_dec fl f) (S (length r)) [] (e :: r1)) as [[l r2]|x] eqn:E; cbn [bind]; [|exact I].
    apply (js_members_shallow _ _ IH) in E; [|constructor]. cbn [shallow]. apply le_n_S. unfold f. apply levels_dict. exact E.
  Qed.
  Lemma js_within_shallow l b v : js_loads_within fl l b = Ok v -> (levels v <= l)%nat.
  Proof.
    unfold js_loads_within, js_decode. destruct (str_points b) as [t|]; [|discriminate]. pose proof (js_dec_shallow (S l) (skip_ws t)) as D.
    destruct (js_dec fl (S l) (skip_ws t)) as [[w r]|e]; cbn [bind]; [|discriminate]. destruct (skip_ws r); [|discriminate]. intros [= ->]. cbn in D. lia.
  Qed.
  (** The text of a value nested within the limit is read back; the text of any other is too deep. *)
  Lemma js_within_encoded (B : floats_bounded fl) (FL : floats_ok fl) v b l : json_value v -> js_dumps fl v = Ok b ->
    js_loads_within fl l b = if (levels v <=? l)%nat then Ok v else Raise RecursionError.
  Proof.
    intros W E. destruct (js_good_all fl FL v W) as (t & Et & St & A & D & R). unfold js_dumps in E. rewrite Et in E. cbn [bind] in E. injection E as <-.
    assert (U : forall k, (levels v <= k)%nat -> js_loads_within fl k (map byte_of t) = Ok v).
    { intros k K. unfold js_loads_within, js_decode. rewrite utf8_ascii by exact A. rewrite <- (app_nil_r t). rewrite starts_ws by exact St.
      rewrite R by (cbn; auto; lia). reflexivity. }
    destruct (Nat.leb_spec (levels v) l) as [L|L]; [apply U; exact L|].
    destruct (js_within_mono (map byte_of t) l (levels v) ltac:(lia)) as [H|H]; [exact H|]. exfalso. rewrite (U _ (Nat.le_refl _)) in H.
    apply js_within_shallow in H. lia.
  Qed.
End JsonLimit.

(** ** CBOR *)
Lemma mp_items_limited dec dec' : (forall b, limited (dec b) (dec' b)) -> forall n b, limited (mp_items dec n b) (mp_items dec' n b).
Proof.
  intros D. induction n as [|n IH]; intros b; cbn [mp_items]; [apply limited_refl|]. apply limited_bind; [apply D|]. intros [x r] _.
  apply limited_bind; [apply IH|]. intros [l q] _. apply limited_refl.
Qed.
Lemma cb_pairs_limited dec dec' : (forall b, limited (dec b) (dec' b)) -> forall n d b, limited (cb_pairs dec n d b) (cb_pairs dec' n d b).
Proof.
  intros D. induction n as [|n IH]; intros d b; cbn [cb_pairs]; [apply limited_refl|]. apply limited_bind; [apply D|]. intros [k r] _.
  apply limited_bind; [apply D|]. intros [x q] _. destruct (hashable k); [apply IH|apply limited_refl].
Qed.
Lemma cb_items_break_limited dec dec' : (forall b, limited (dec b) (dec' b)) -> forall n b, limited (cb_items_break dec n b) (cb_items_break dec' n b).
Proof.
  intros D. induction n as [|n IH]; intros b; cbn [cb_items_break]; [apply limited_refl|]. destruct b as [|a r]; [apply limited_refl|].
  destruct (byte_Z a =? 255); [apply limited_refl|]. apply limited_bind; [apply D|]. intros [x q] _. apply limited_bind; [apply IH|]. intros [l q'] _. apply limited_refl.
Qed.
Lemma cb_pairs_break_limited dec dec' : (forall b, limited (dec b) (dec' b)) -> forall n d b, limited (cb_pairs_break dec n d b) (cb_pairs_break dec' n d b).
Proof.
  intros D. induction n as [|n IH]; intros d b; cbn [cb_pairs_break]; [apply limited_refl|]. destruct b as [|a r]; [apply limited_refl|].
  destruct (byte_Z a =? 255); [apply limited_refl|]. apply limited_bind; [apply D|]. intros [k r1] _. apply limited_bind; [apply D|]. intros [x q] _.
  destruct (hashable k); [apply IH|apply limited_refl].
Qed.
Lemma cb_dec_limited f : forall f' b, (f <= f')%nat -> limited (cb_dec f b) (cb_dec f' b).
Proof.
  induction f as [|f IH]; intros f' b F; [left; reflexivity|]. destruct f' as [|f']; [lia|].
  assert (D : forall b, limited (cb_dec f b) (cb_dec f' b)) by (intros; apply IH; lia). clear IH. destruct b as [|a r]; [apply limited_refl|].
  rewrite !cb_dec_item. unfold cb_item. set (sub := byte_Z a mod 32). set (major := byte_Z a / 32).
  destruct (major =? 0); [apply limited_refl|]. destruct (major =? 1); [apply limited_refl|].
  destruct (major =? 2); [apply limited_refl|]. destruct (major =? 3); [apply limited_refl|].
  destruct (major =? 4).
  { apply limited_bind; [apply limited_refl|]. intros [[z|] q] _; (apply limited_bind; [|intros [l q'] _; apply limited_refl]).
    - apply mp_items_limited; exact D.
    - apply cb_items_break_limited; exact D. }
  destruct (major =? 5).
  { apply limited_bind; [apply limited_refl|]. intros [[z|] q] _; (apply limited_bind; [|intros [l q'] _; apply limited_refl]).
    - apply cb_pairs_limited; exact D.
    - apply cb_pairs_break_limited; exact D. }
  destruct (major =? 6); [|apply limited_refl]. apply limited_bind; [apply limited_refl|]. intros [tag q] _.
  destruct (tag =? 2); [|destruct (tag =? 3); [|apply limited_refl]]; (apply limited_bind; [apply D|intros [v q'] _; apply limited_refl]).
Qed.
Lemma cb_loads_limited l b : limited (cb_loads_within l b) (cb_loads b).
Proof.
  unfold cb_loads, cb_loads_within.
  assert (E : cb_dec (S (length b)) b = cb_dec (Nat.max l (S (length b))) b).
  { destruct (cb_dec_limited (S (length b)) (Nat.max l (S (length b))) b ltac:(lia)) as [E|E]; [|exact E]. exfalso.
    pose proof (cb_dec_cb (S (length b)) b ltac:(lia)) as T. rewrite E in T. exact T. }
  rewrite E. apply limited_bind; [apply cb_dec_limited; lia|]. intros [v r] _. apply limited_refl.
Qed.
(** [n] arrays of one element in each other. *)
Lemma cb_dec_nest l : forall n r, (l <= n)%nat -> cb_dec l (repeat (byte_of 129) n ++ r) = Raise RecursionError.
Proof.
  induction l as [|l IH]; intros n r L; [reflexivity|]. destruct n as [|n]; [lia|]. cbn [repeat app]. rewrite cb_dec_item.
  change (byte_Z (byte_of 129) / 32) with 4. change (byte_Z (byte_of 129) mod 32) with 1. unfold cb_item. cbn [Z.eqb Pos.eqb].
  change (cb_len 1 (repeat (byte_of 129) n ++ r)) with (Ok (A := option Z * bytes) (Some 1, repeat (byte_of 129) n ++ r)). cbn [bind].
  change (Z.to_nat 1) with 1%nat. cbn [mp_items]. rewrite IH by lia. reflexivity.
Qed.
Lemma cb_within_encoded v b l : cbor_value v -> dumps cbor v = Ok b -> (depth v + 2 <= l)%nat -> cb_loads_within l b = Ok v.
Proof.
  intros W E L. destruct (cb_good_all v W) as (b' & E' & _ & R). assert (b' = b) by (cbn [dumps cbor] in E; congruence). subst b'. unfold cb_loads_within.
  rewrite <- (app_nil_r b). rewrite R by lia. reflexivity.
Qed.

(** ** MsgPack: the unpacker's own limit *)
Lemma mp_unpack_nest lim : 1 <= lim -> forall f n r, mp_unpack (S f) lim (repeat (byte_of 145) n ++ byte_of 192 :: r) =
  if (n <=? f)%nat then Ok (Nat.iter n (fun v => VList [v]) VNone, r) else mp_stack_error.
Proof.
  intros LM. induction f as [|f IH]; intros n r.
  - destruct n as [|n]; [reflexivity|]. reflexivity.
  - destruct n as [|n]; [reflexivity|]. cbn [repeat app]. remember (S f) as g eqn:Eg. cbn [mp_unpack]. change (byte_Z (byte_of 145)) with 145.
    change (145 <? 128) with false. change (145 <? 144) with false. change (145 <? 160) with true. cbv zeta iota. subst g. cbn [mp_nest].
    unfold mp_array. change (145 - 144) with 1. destruct (Z.ltb_spec lim 1); [lia|]. change (Z.to_nat 1) with 1%nat. cbn [mp_items].
    rewrite IH. cbn [Nat.leb Nat.iter]. destruct (n <=? f)%nat; reflexivity.
Qed.
Lemma mp_loads_nest n : mp_loads (repeat (byte_of 145) n ++ [byte_of 192]) =
  if (n <=? MP_STACK)%nat then Ok (Nat.iter n (fun v => VList [v]) VNone) else Raise (ValueError ["StackError"%string]).
Proof.
  unfold mp_loads. rewrite mp_unpack_nest; [destruct (n <=? MP_STACK)%nat; reflexivity|]. unfold zlen. rewrite app_length. cbn [length]. lia.
Qed.

(** ** The serializers *)
Lemma deserialize_limited c c' b : limited (loads c b) (loads c' b) -> limited (deserialize c b) (deserialize c' b).
Proof. intros H. unfold deserialize. apply limited_bind; [exact H|]. intros v _. apply limited_refl. Qed.
Lemma json_limited l b : deserialize (json_within l) b = deserialize python_json b \/ deserialize (json_within l) b = Raise RecursionError.
Proof. destruct (deserialize_limited (json_within l) python_json b (js_loads_limited _ python_floats_bounded b l)); auto. Qed.
Lemma cbor_limited l b : deserialize (cbor_within l) b = deserialize cbor b \/ deserialize (cbor_within l) b = Raise RecursionError.
Proof. destruct (deserialize_limited (cbor_within l) cbor b (cb_loads_limited l b)); auto. Qed.
Lemma json_within_exact l m b : json_value (VList (marshal m)) -> serialize python_json m = Ok b ->
  deserialize (json_within l) b = if (levels (VList (marshal m)) <=? l)%nat then deserialize python_json b else Raise RecursionError.
Proof.
  intros W S. unfold serialize in S. cbn [dumps python_json json] in S. unfold deserialize. cbn [loads json_within].
  rewrite (js_within_encoded _ python_floats_bounded python_floats_ok _ _ l W S). destruct (_ <=? _)%nat; [|reflexivity].
  destruct (python_json_round_trip _ W) as (b' & E & _ & R). cbn [dumps python_json json] in E. assert (b' = b) by congruence. subst b'. rewrite R. reflexivity.
Qed.
Lemma cbor_within_deep l m b : cbor_value (VList (marshal m)) -> serialize cbor m = Ok b -> (depth (VList (marshal m)) + 2 <= l)%nat ->
  deserialize (cbor_within l) b = deserialize cbor b.
Proof.
  intros W S L. unfold serialize in S. unfold deserialize. cbn [loads cbor_within]. rewrite (cb_within_encoded _ _ _ W S L).
  destruct (cbor_round_trip _ W) as (b' & E & _ & R). assert (b' = b) by congruence. subst b'. rewrite R. reflexivity.
Qed.
Lemma cbor_nest_raises l n r : (l <= n)%nat -> deserialize (cbor_within l) (repeat (byte_of 129) n ++ r) = Raise RecursionError.
Proof. intros L. unfold deserialize. cbn [loads cbor_within]. unfold cb_loads_within. rewrite cb_dec_nest by exact L. reflexivity. Qed.

(** An event whose argument is [n] lists in each other. *)
Definition nest (n : nat) : val := Nat.iter n (fun v => VList [v]) VNone.
Definition nested_event (n : nat) : message := Event (mkEvent (PyInt 1) (PyInt 2) (Some [nest n]) None []).
Lemma nest_json n : everywhere json_here (nest n).
Proof. induction n as [|n IH]; [repeat split|]. apply everywhere_list. split; [repeat split|]. constructor; [exact IH|constructor]. Qed.
Lemma nest_levels n : levels (nest n) = n.
Proof. induction n as [|n IH]; [reflexivity|]. change (nest (S n)) with (VList [nest n]). cbn [levels]. rewrite IH. lia. Qed.
Lemma nested_event_json n : wf_message (nested_event n) /\ json_value (VList (marshal (nested_event n))).
Proof.
  split; [split; [exists 1|exists 2]; (split; [reflexivity|split; intros H; discriminate H])|]. unfold json_value. cbn.
  pose proof (nest_json n). repeat split; auto; try constructor; cbn; lia.
Qed.
Lemma json_too_deep l : exists m b, class_of m = CEvent /\ serialize python_json m = Ok b /\ deserialize python_json b = Ok m /\
  deserialize (json_within l) b = Raise RecursionError.
Proof.
  destruct (nested_event_json l) as [W V]. destruct (json_serializer _ W V) as (b & S & D). exists (nested_event l), b.
  split; [reflexivity|]. split; [exact S|]. split; [exact D|]. rewrite (json_within_exact _ _ _ V S).
  replace (levels _ <=? l)%nat with false; [reflexivity|]. symmetry. apply Nat.leb_gt. cbn. rewrite nest_levels. lia.
Qed.
