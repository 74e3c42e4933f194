(** * CodecOpenFacts: the parts left open make no difference where Cbor.v and MsgPack.v say what happens. *)
From Coq Require Import String Ascii List ZArith Bool Lia.
From Verif Require Import PyBase Rawsocket BitFacts Encoding EncodingFacts Utf8 CodecBase Serializer MsgPack MsgPackFacts Cbor CborFacts Json CodecOpen.
Import ListNotations.
Local Open Scope Z_scope.
Local Open Scope list_scope.

(** [y] is [x], unless [x] is outside the model. *)
Definition agrees {A} (x y : res A) : Prop := x <> Raise ModelGap -> y = x.
Lemma agrees_refl {A} (x : res A) : agrees x x. Proof. intros _. reflexivity. Qed.
Lemma agrees_bind {A B} (x y : res A) (f g : A -> res B) : agrees x y -> (forall a, x = Ok a -> agrees (f a) (g a)) -> agrees (bind x f) (bind y g).
Proof.
  intros H F N. destruct x as [a|e]; cbn [bind] in *.
  - rewrite H by discriminate. cbn [bind]. apply (F a eq_refl). exact N.
  - rewrite H by (intros E; apply N; injection E as ->; reflexivity). reflexivity.
Qed.
Lemma agrees_gap {A} (y : res A) : agrees (Raise ModelGap) y. Proof. intros H. contradiction. Qed.
Lemma agrees_ok {A} (x y : res A) a : agrees x y -> x = Ok a -> y = Ok a.
Proof. intros H ->. apply H. discriminate. Qed.
Lemma agrees_cat a b a' b' : agrees a a' -> agrees b b' -> agrees (cat a b) (cat a' b').
Proof. intros H K. unfold cat. apply agrees_bind; [exact H|]. intros x _. apply agrees_bind; [exact K|]. intros y _. apply agrees_refl. Qed.

Section Open.
Context (U : unknown).
Lemma cbo_enc_agrees : forall v, agrees (cb_enc v) (cbo_enc U v).
Proof.
  fix IH 1. intros [| | | | | |l|d|n t]; cbn [cb_enc cbo_enc]; try apply agrees_refl.
  - apply agrees_cat; [apply agrees_refl|]. induction l as [|x l L]; [apply agrees_refl|]. apply agrees_cat; [apply IH|exact L].
  - apply agrees_cat; [apply agrees_refl|]. induction d as [|[k x] d L]; [apply agrees_refl|]. apply agrees_cat; [apply IH|]. apply agrees_cat; [apply IH|exact L].
  - apply agrees_gap.
Qed.
Lemma mpo_pack_agrees : forall v n, agrees (mp_pack n v) (mpo_pack U n v).
Proof.
  fix IH 1. intros [| | | | | |l|d|nm t] n; cbn [mp_pack mpo_pack]; (destruct (n <? 0); [apply agrees_refl|]); try apply agrees_refl.
  - apply agrees_cat; [apply agrees_refl|]. induction l as [|x l L]; [apply agrees_refl|]. apply agrees_cat; [apply IH|exact L].
  - apply agrees_cat; [apply agrees_refl|]. induction d as [|[k x] d L]; [apply agrees_refl|]. apply agrees_cat; [apply IH|]. apply agrees_cat; [apply IH|exact L].
  - apply agrees_gap.
Qed.

Lemma agrees_cat_t a b a' b' : agrees a a' -> agrees b b' -> agrees (cat_t a b) (cat_t a' b').
Proof. intros H K. unfold cat_t. apply agrees_bind; [exact H|]. intros x _. apply agrees_bind; [exact K|]. intros y _. apply agrees_refl. Qed.
Lemma jso_key_agrees fl k : agrees (js_key fl k) (jso_key U fl k).
Proof. destruct k; try apply agrees_refl. apply agrees_gap. Qed.
Lemma jso_enc_agrees fl : forall v, agrees (js_enc fl v) (jso_enc U fl v).
Proof.
  fix IH 1. intros [| | | | | |l|d|n t]; cbn [js_enc jso_enc]; try apply agrees_refl.
  - apply agrees_cat_t; [apply agrees_refl|]. generalize true. induction l as [|x l L]; intros b; [apply agrees_refl|]. apply agrees_cat_t; [apply agrees_refl|]. apply agrees_cat_t; [apply IH|apply L].
  - apply agrees_cat_t; [apply agrees_refl|]. generalize true. induction d as [|[k x] d L]; intros b; [apply agrees_refl|]. apply agrees_cat_t; [apply agrees_refl|].
    apply agrees_cat_t; [apply jso_key_agrees|]. apply agrees_cat_t; [apply agrees_refl|]. apply agrees_cat_t; [apply IH|apply L].
  - apply agrees_gap.
Qed.
Section Items.
  Context (dec dec' : bytes -> res (val * bytes)) (D : forall b, agrees (dec b) (dec' b)).
  Lemma items_agrees n : forall b, agrees (mp_items dec n b) (mp_items dec' n b).
  Proof.
    induction n as [|n IH]; intros b; cbn [mp_items]; [apply agrees_refl|]. apply agrees_bind; [apply D|]. intros [x r] _. apply agrees_bind; [apply IH|]. intros [l r'] _. apply agrees_refl.
  Qed.
  Lemma break_agrees n : forall b, agrees (cb_items_break dec n b) (cb_items_break dec' n b).
  Proof.
    induction n as [|n IH]; intros b; cbn [cb_items_break]; [apply agrees_refl|]. destruct b as [|a r]; [apply agrees_refl|]. destruct (_ =? _); [apply agrees_refl|].
    apply agrees_bind; [apply D|]. intros [x r1] _. apply agrees_bind; [apply IH|]. intros [l r2] _. apply agrees_refl.
  Qed.
  Lemma key_agrees k (f g : res (dict * bytes)) (h : val -> res (dict * bytes)) : agrees f (h k) -> agrees (if hashable k then f else Raise ModelGap) (bind (cbo_key U k) h).
  Proof. intros H. unfold cbo_key. destruct (hashable k); [exact H|apply agrees_gap]. Qed.
  Lemma pairs_agrees n : forall d b, agrees (cb_pairs dec n d b) (cbo_pairs U dec' n d b).
  Proof.
    induction n as [|n IH]; intros d b; cbn [cb_pairs cbo_pairs]; [apply agrees_refl|]. apply agrees_bind; [apply D|]. intros [k r] _. apply agrees_bind; [apply D|]. intros [x r'] _.
    apply key_agrees; [exact (Raise ModelGap)|apply IH].
  Qed.
  Lemma pairs_break_agrees n : forall d b, agrees (cb_pairs_break dec n d b) (cbo_pairs_break U dec' n d b).
  Proof.
    induction n as [|n IH]; intros d b; cbn [cb_pairs_break cbo_pairs_break]; [apply agrees_refl|]. destruct b as [|a r]; [apply agrees_refl|]. destruct (_ =? _); [apply agrees_refl|].
    apply agrees_bind; [apply D|]. intros [k r1] _. apply agrees_bind; [apply D|]. intros [x r2] _. apply key_agrees; [exact (Raise ModelGap)|apply IH].
  Qed.
End Items.
Definition cbo_item (f : nat) (major sub : Z) (r : bytes) : res (val * bytes) :=
  if major =? 0 then let! (z, r') := cb_uint sub r in Ok (VInt z, r')
  else if major =? 1 then let! (z, r') := cb_uint sub r in Ok (VInt (- z - 1), r')
  else if major =? 2 then let! (x, r') := cb_string (S (length r)) 2 sub r in Ok (VBytes x, r')
  else if major =? 3 then
    let! (x, r') := cb_string (S (length r)) 3 sub r in
    if utf8_valid x then Ok (VStr (decode_str x), r') else Raise (CodecError "error decoding unicode string")
  else if major =? 4 then
    let! (n, r') := cb_len sub r in
    let! (l, r'') := match n with
                     | Some z => mp_items (cbo_dec U f) (Z.to_nat z) r'
                     | None => cb_items_break (cbo_dec U f) (S (length r)) r'
                     end in
    Ok (VList l, r'')
  else if major =? 5 then
    let! (n, r') := cb_len sub r in
    let! (d, r'') := match n with
                     | Some z => cbo_pairs U (cbo_dec U f) (Z.to_nat z) [] r'
                     | None => cbo_pairs_break U (cbo_dec U f) (S (length r)) [] r'
                     end in
    Ok (VDict d, r'')
  else if major =? 6 then
    let! (tag, r') := cb_uint sub r in
    if tag =? 2 then cb_big (cbo_dec U f r') false
    else if tag =? 3 then cb_big (cbo_dec U f r') true
    else let! (x, r'') := cbo_dec U f r' in let! y := tag_dec U tag x r'' in Ok (y, r'')
  else cb_special sub r.
Lemma cbo_dec_item f a r : cbo_dec U (S f) (a :: r) = cbo_item f (byte_Z a / 32) (byte_Z a mod 32) r.
Proof. reflexivity. Qed.
Lemma cbo_dec_agrees f : forall b, agrees (cb_dec f b) (cbo_dec U f b).
Proof.
  induction f as [|f IH]; intros b; [apply agrees_refl|]. destruct b as [|a r]; [apply agrees_refl|]. rewrite cb_dec_item, cbo_dec_item. unfold cb_item, cbo_item. set (sub := byte_Z a mod 32).
  repeat match goal with |- context [if byte_Z a / 32 =? ?c then _ else _] => destruct (byte_Z a / 32 =? c) end; try apply agrees_refl.
  - apply agrees_bind; [apply agrees_refl|]. intros [[z|] r'] _; (apply agrees_bind; [|intros [l r''] _; apply agrees_refl]); [apply items_agrees, IH|apply break_agrees, IH].
  - apply agrees_bind; [apply agrees_refl|]. intros [[z|] r'] _; (apply agrees_bind; [|intros [l r''] _; apply agrees_refl]); [apply pairs_agrees, IH|apply pairs_break_agrees, IH].
  - apply agrees_bind; [apply agrees_refl|]. intros [z r'] _. destruct (z =? 2); [|destruct (z =? 3); [|apply agrees_gap]]; (unfold cb_big; apply agrees_bind; [apply IH|intros x _; apply agrees_refl]).
Qed.
Lemma cbor_open_dumps v : agrees (dumps cbor v) (dumps (cbor_open U) v). Proof. apply cbo_enc_agrees. Qed.
Lemma cbor_open_loads b : agrees (loads cbor b) (loads (cbor_open U) b).
Proof. cbn [loads cbor cbor_open]. unfold cb_loads, cb_loads_within, cbo_loads. apply agrees_bind; [apply cbo_dec_agrees|]. intros [v r] _. apply agrees_refl. Qed.
Lemma msgpack_open_dumps v : agrees (dumps msgpack v) (dumps (msgpack_open U) v). Proof. apply mpo_pack_agrees. Qed.
Lemma json_open_dumps fl v : agrees (dumps (json fl) v) (dumps (json_open U fl) v).
Proof. cbn [dumps json json_open]. unfold js_dumps. apply agrees_bind; [apply jso_enc_agrees|]. intros t _. apply agrees_refl. Qed.

(** ** What can go wrong *)
Definition from_unknown (e : exn) : Prop := (exists t x r, tag_dec U t x r = Raise e) \/ exists k, hashable k = false /\ key_dec U k = Raise e.
Definition open_error (e : exn) : Prop := (exists m, e = CodecError m) \/ from_unknown e.
Definition open_decodes (b : bytes) (x : res (val * bytes)) : Prop := match x with Ok (_, r) => (length r < length b)%nat | Raise e => open_error e end.
Lemma cb_error_open e : cb_error e -> e <> ModelGap -> open_error e.
Proof. intros H N. destruct e; try contradiction. left. eauto. Qed.
Section Decodes.
  Context (dec : bytes -> res (val * bytes)) (n : nat) (D : forall c, (length c <= n)%nat -> open_decodes c (dec c)).
  Lemma items_open : forall k b, (length b <= n)%nat -> match mp_items dec k b with Ok (_, r) => (length r <= length b)%nat | Raise e => open_error e end.
  Proof.
    induction k as [|k IH]; intros b L; cbn [mp_items]; [lia|]. specialize (D b L) as Db. unfold open_decodes in Db. destruct (dec b) as [[x r]|e]; cbn [bind]; [|exact Db].
    specialize (IH r ltac:(lia)). destruct (mp_items dec k r) as [[l r']|e]; cbn [bind]; [lia|exact IH].
  Qed.
  Lemma break_open : forall k b, (length b <= n)%nat -> (length b < k)%nat -> match cb_items_break dec k b with Ok (_, r) => (length r <= length b)%nat | Raise e => open_error e end.
  Proof.
    induction k as [|k IH]; intros b L K; [lia|]. destruct b as [|a b0]; cbn [cb_items_break]; [left; eauto|]. destruct (byte_Z a =? 255); [cbn; lia|].
    specialize (D _ L) as Db. unfold open_decodes in Db. destruct (dec (a :: b0)) as [[x r]|e]; cbn [bind]; [|exact Db].
    specialize (IH r ltac:(lia) ltac:(lia)). destruct (cb_items_break dec k r) as [[l r']|e]; cbn [bind]; [lia|exact IH].
  Qed.
  Lemma key_open k : match cbo_key U k with Ok _ => True | Raise e => open_error e end.
  Proof. unfold cbo_key. destruct (hashable k) eqn:Hk; [exact I|]. destruct (key_dec U k) eqn:E; [exact I|]. right. right. eauto. Qed.
  Lemma pairs_open : forall k d b, (length b <= n)%nat -> match cbo_pairs U dec k d b with Ok (_, r) => (length r <= length b)%nat | Raise e => open_error e end.
  Proof.
    induction k as [|k IH]; intros d b L; cbn [cbo_pairs]; [lia|]. specialize (D b L) as Db. unfold open_decodes in Db. destruct (dec b) as [[x r]|e]; cbn [bind]; [|exact Db].
    assert (L' : (length r <= n)%nat) by lia. specialize (D r L') as Dr. unfold open_decodes in Dr. destruct (dec r) as [[y r']|e]; cbn [bind]; [|exact Dr].
    pose proof (key_open x) as K. destruct (cbo_key U x) as [k'|e]; cbn [bind]; [|exact K]. specialize (IH (vset k' y d) r' ltac:(lia)). destruct (cbo_pairs U dec k _ r') as [[d' r'']|e]; [lia|exact IH].
  Qed.
  Lemma pairs_break_open : forall k d b, (length b <= n)%nat -> (length b < k)%nat -> match cbo_pairs_break U dec k d b with Ok (_, r) => (length r <= length b)%nat | Raise e => open_error e end.
  Proof.
    induction k as [|k IH]; intros d b L K; [lia|]. destruct b as [|a b0]; cbn [cbo_pairs_break]; [left; eauto|]. destruct (byte_Z a =? 255); [cbn; lia|].
    specialize (D _ L) as Db. unfold open_decodes in Db. destruct (dec (a :: b0)) as [[x r]|e]; cbn [bind]; [|exact Db].
    assert (L' : (length r <= n)%nat) by lia. specialize (D r L') as Dr. unfold open_decodes in Dr. destruct (dec r) as [[y r']|e]; cbn [bind]; [|exact Dr].
    pose proof (key_open x) as Ky. destruct (cbo_key U x) as [k'|e]; cbn [bind]; [|exact Ky]. specialize (IH (vset k' y d) r' ltac:(lia) ltac:(lia)). destruct (cbo_pairs_break U dec k _ r') as [[d' r'']|e]; [lia|exact IH].
  Qed.
End Decodes.
Lemma take_plain n r e : take n r = Raise e -> e <> ModelGap.
Proof. unfold take. match goal with |- context [if ?c then _ else _] => destruct c end; intros [= <-]; discriminate. Qed.
Lemma take_int_plain n r e : take_int n r = Raise e -> e <> ModelGap.
Proof. unfold take_int. destruct (take n r) as [[x y]|e'] eqn:T; cbn [bind]; [discriminate|]. intros [= <-]. exact (take_plain _ _ _ T). Qed.
Lemma cb_len_plain sub r e : cb_len sub r = Raise e -> e <> ModelGap.
Proof.
  unfold cb_len. repeat match goal with |- context [if ?c then _ else _] => destruct c end; try discriminate; try (intros [= <-]; discriminate);
    (destruct (take_int _ r) as [[x y]|e'] eqn:T; cbn [bind]; [discriminate|]; intros [= <-]; exact (take_int_plain _ _ _ T)).
Qed.
Lemma cb_uint_plain sub r e : cb_uint sub r = Raise e -> e <> ModelGap.
Proof. unfold cb_uint. destruct (cb_len sub r) as [[[z|] r']|e'] eqn:E; cbn [bind]; [discriminate|intros [= <-]; discriminate|intros [= <-]; exact (cb_len_plain _ _ _ E)]. Qed.
Lemma cb_chunks_plain fuel major : forall b e, cb_chunks fuel major b = Raise e -> e <> ModelGap.
Proof.
  induction fuel as [|f IH]; intros b e; [intros [= <-]; discriminate|]. destruct b as [|a r]; cbn [cb_chunks]; [intros [= <-]; discriminate|]. destruct (_ =? 255); [discriminate|].
  destruct (_ =? major); [|intros [= <-]; discriminate]. destruct (cb_uint _ r) as [[z r1]|e'] eqn:E; cbn [bind]; [|intros [= <-]; exact (cb_uint_plain _ _ _ E)].
  destruct (take _ r1) as [[x r2]|e'] eqn:E2; cbn [bind]; [|intros [= <-]; exact (take_plain _ _ _ E2)]. destruct (_ && _); [intros [= <-]; discriminate|].
  destruct (cb_chunks f major r2) as [[y r3]|e'] eqn:E3; cbn [bind]; [discriminate|]. intros [= <-]. exact (IH _ _ E3).
Qed.
Lemma cb_string_plain fuel major sub b e : cb_string fuel major sub b = Raise e -> e <> ModelGap.
Proof.
  unfold cb_string. destruct (cb_len sub b) as [[[z|] r]|e'] eqn:E; cbn [bind]; [apply take_plain|apply cb_chunks_plain|intros [= <-]; exact (cb_len_plain _ _ _ E)].
Qed.
Lemma cb_special_open sub r b : (length r < length b)%nat -> open_decodes b (cb_special sub r).
Proof.
  intros L. pose proof (cb_special_cb sub r b L) as H. unfold cb_decodes, open_decodes in *. destruct (cb_special sub r) as [[v r']|e] eqn:E; [apply H|]. apply cb_error_open; [exact H|].
  revert E. unfold cb_special. repeat match goal with |- context [if ?c then _ else _] => destruct c end; try discriminate; try (intros [= <-]; discriminate);
    first [destruct (take_int _ r) as [[x y]|e'] eqn:T; cbn [bind]; [discriminate|]; intros [= <-]; exact (take_int_plain _ _ _ T)
          |destruct (take _ r) as [[x y]|e'] eqn:T; cbn [bind]; [discriminate|]; intros [= <-]; exact (take_plain _ _ _ T)].
Qed.
Lemma cb_big_open x neg b r : (length r < length b)%nat -> open_decodes r x -> open_decodes b (cb_big x neg).
Proof.
  intros L X. unfold cb_big. destruct x as [[v r']|e]; cbn [bind]; [|exact X]. unfold open_decodes in *. destruct v as [| | | | |[|a c]| | |]; try (left; eauto; fail). lia.
Qed.
Lemma cbo_dec_open fuel : forall b, (length b < fuel)%nat -> open_decodes b (cbo_dec U fuel b).
Proof.
  induction fuel as [|f IH]; intros b L; [lia|]. destruct b as [|a r]; [left; eexists; reflexivity|]. rewrite cbo_dec_item. cbn [length] in L.
  assert (Lr : (length r < length (a :: r))%nat) by (cbn; lia). assert (D : forall c, (length c <= length r)%nat -> open_decodes c (cbo_dec U f c)) by (intros; apply IH; lia).
  unfold cbo_item. set (sub := byte_Z a mod 32). repeat match goal with |- context [if byte_Z a / 32 =? ?c then _ else _] => destruct (byte_Z a / 32 =? c) end.
  - pose proof (cb_uint_cb sub r) as T. destruct (cb_uint sub r) as [[z r']|e] eqn:E; cbn [bind]; [|apply cb_error_open; [exact T|exact (cb_uint_plain _ _ _ E)]]. cbn [open_decodes]. lia.
  - pose proof (cb_uint_cb sub r) as T. destruct (cb_uint sub r) as [[z r']|e] eqn:E; cbn [bind]; [|apply cb_error_open; [exact T|exact (cb_uint_plain _ _ _ E)]]. cbn [open_decodes]. lia.
  - pose proof (cb_string_cb (S (length r)) 2 sub r ltac:(lia)) as T. destruct (cb_string (S (length r)) 2 sub r) as [[z r']|e] eqn:E; cbn [bind]; [|apply cb_error_open; [exact T|exact (cb_string_plain _ _ _ _ _ E)]]. cbn [open_decodes]. lia.
  - pose proof (cb_string_cb (S (length r)) 3 sub r ltac:(lia)) as T. destruct (cb_string (S (length r)) 3 sub r) as [[z r']|e] eqn:E; cbn [bind]; [|apply cb_error_open; [exact T|exact (cb_string_plain _ _ _ _ _ E)]].
    destruct (utf8_valid z); cbn [open_decodes]; [lia|left; eauto].
  - pose proof (cb_len_cb sub r) as T. destruct (cb_len sub r) as [[[z|] r']|e] eqn:E; cbn [bind]; [| |apply cb_error_open; [exact T|exact (cb_len_plain _ _ _ E)]].
    + pose proof (items_open _ _ D (Z.to_nat z) r' ltac:(lia)) as T1. destruct (mp_items (cbo_dec U f) (Z.to_nat z) r') as [[l r'']|e]; cbn [bind open_decodes]; [lia|exact T1].
    + pose proof (break_open _ _ D (S (length r)) r' ltac:(lia) ltac:(lia)) as T1. destruct (cb_items_break (cbo_dec U f) (S (length r)) r') as [[l r'']|e]; cbn [bind open_decodes]; [lia|exact T1].
  - pose proof (cb_len_cb sub r) as T. destruct (cb_len sub r) as [[[z|] r']|e] eqn:E; cbn [bind]; [| |apply cb_error_open; [exact T|exact (cb_len_plain _ _ _ E)]].
    + pose proof (pairs_open _ _ D (Z.to_nat z) [] r' ltac:(lia)) as T1. destruct (cbo_pairs U (cbo_dec U f) (Z.to_nat z) [] r') as [[l r'']|e]; cbn [bind open_decodes]; [lia|exact T1].
    + pose proof (pairs_break_open _ _ D (S (length r)) [] r' ltac:(lia) ltac:(lia)) as T1. destruct (cbo_pairs_break U (cbo_dec U f) (S (length r)) [] r') as [[l r'']|e]; cbn [bind open_decodes]; [lia|exact T1].
  - pose proof (cb_uint_cb sub r) as T. destruct (cb_uint sub r) as [[z r']|e] eqn:E; cbn [bind]; [|apply cb_error_open; [exact T|exact (cb_uint_plain _ _ _ E)]].
    destruct (z =? 2); [|destruct (z =? 3)]; [eapply cb_big_open; [|apply D; lia]; cbn; lia|eapply cb_big_open; [|apply D; lia]; cbn; lia|].
    pose proof (D r' ltac:(lia)) as Dr. destruct (cbo_dec U f r') as [[x r'']|e]; cbn [bind]; [|exact Dr]. destruct (tag_dec U z x r'') as [y|e] eqn:Ey; cbn [bind open_decodes] in *; [lia|]. right. left. eauto.
  - apply cb_special_open; exact Lr.
Qed.
Lemma cbor_open_total b e : loads (cbor_open U) b = Raise e -> open_error e.
Proof.
  cbn [loads cbor_open]. unfold cbo_loads. pose proof (cbo_dec_open (S (length b)) b ltac:(lia)) as T. destruct (cbo_dec U (S (length b)) b) as [[v r]|e']; cbn [bind]; [discriminate|]. intros [= <-]. exact T.
Qed.
End Open.
