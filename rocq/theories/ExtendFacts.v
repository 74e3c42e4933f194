(** * ExtendFacts: decoding does not depend on what follows the value. *)
From Coq Require Import String Ascii List ZArith Bool Lia.
From Verif Require Import PyBase Rawsocket BitFacts Encoding EncodingFacts Utf8 Utf8Facts CodecBase Serializer SpecCodec CodecFacts
  MsgPack MsgPackFacts Cbor CborFacts Json JsonFacts.
Import ListNotations.
Local Open Scope Z_scope.

(** If [x] reads something then [y] reads the same and leaves [s] more. *)
Definition grows {A B} (s : list B) (x y : res (A * list B)) : Prop := forall a r, x = Ok (a, r) -> y = Ok (a, r ++ s).

Lemma grows_ok {A B} (s : list B) (a : A) r : grows s (Ok (a, r)) (Ok (a, r ++ s)).
Proof. intros b q [= <- <-]. reflexivity. Qed.
Lemma grows_raise {A B} (s : list B) e (y : res (A * list B)) : grows s (Raise e) y.
Proof. intros b q H. discriminate. Qed.
Lemma grows_bind {A A' B} (s : list B) x y (k k' : A -> list B -> res (A' * list B)) :
  grows s x y -> (forall a r, x = Ok (a, r) -> grows s (k a r) (k' a (r ++ s))) ->
  grows s (let! (a, r) := x in k a r) (let! (a, r) := y in k' a r).
Proof.
  intros H K b q. destruct x as [[a r]|e]; cbn [bind]; [|discriminate]. rewrite (H a r eq_refl). cbn [bind]. apply (K a r eq_refl).
Qed.

Lemma take_grows n b s : grows s (take n b) (take n (b ++ s)).
Proof.
  intros x r H. apply take_inv in H. destruct H as [-> <-]. rewrite <- app_assoc. apply take_app.
Qed.
Lemma take_int_grows n b s : grows s (take_int n b) (take_int n (b ++ s)).
Proof. unfold take_int. apply grows_bind; [apply take_grows|]. intros. apply grows_ok. Qed.

(** ** MsgPack *)
Section MsgPack.
  Context (s : bytes) (lim lim' : Z) (LL : lim <= lim') (L0 : 0 <= lim).
  Lemma mp_raw_grows n b : grows s (mp_raw lim n b) (mp_raw lim' n (b ++ s)).
  Proof.
    unfold mp_raw. destruct (Z.ltb_spec lim n); [apply grows_raise|]. destruct (Z.ltb_spec lim' n); [lia|]. apply take_grows.
  Qed.
  Lemma mp_str_grows n b : grows s (mp_str lim n b) (mp_str lim' n (b ++ s)).
  Proof. unfold mp_str. apply grows_bind; [apply mp_raw_grows|]. intros x r _. destruct (utf8_valid x); [apply grows_ok|apply grows_raise]. Qed.
  Lemma mp_bin_grows n b : grows s (mp_bin lim n b) (mp_bin lim' n (b ++ s)).
  Proof. unfold mp_bin. apply grows_bind; [apply mp_raw_grows|]. intros. apply grows_ok. Qed.
  Lemma mp_ext_grows n b : grows s (mp_ext lim n b) (mp_ext lim' n (b ++ s)).
  Proof. unfold mp_ext. apply grows_bind; [apply take_grows|]. intros. apply grows_bind; [apply mp_raw_grows|]. intros. apply grows_ok. Qed.

  Context (dec dec' : bytes -> res (val * bytes)) (DD : forall b, grows s (dec b) (dec' (b ++ s))).
  Lemma mp_items_grows n : forall b, grows s (mp_items dec n b) (mp_items dec' n (b ++ s)).
  Proof.
    induction n as [|n IH]; intros b; cbn [mp_items]; [apply grows_ok|]. apply grows_bind; [apply DD|]. intros.
    apply grows_bind; [apply IH|]. intros. apply grows_ok.
  Qed.
  Lemma mp_pairs_grows n : forall d b, grows s (mp_pairs dec n d b) (mp_pairs dec' n d (b ++ s)).
  Proof.
    induction n as [|n IH]; intros d b; cbn [mp_pairs]; [apply grows_ok|]. apply grows_bind; [apply DD|]. intros k r _.
    destruct (is_text k); [|apply grows_raise]. apply grows_bind; [apply DD|]. intros. apply IH.
  Qed.
  Lemma mp_array_grows n b : grows s (mp_array dec lim n b) (mp_array dec' lim' n (b ++ s)).
  Proof.
    unfold mp_array. destruct (Z.ltb_spec lim n); [apply grows_raise|]. destruct (Z.ltb_spec lim' n); [lia|].
    apply grows_bind; [apply mp_items_grows|]. intros. apply grows_ok.
  Qed.
  Lemma mp_map_grows n b : grows s (mp_map dec lim n b) (mp_map dec' lim' n (b ++ s)).
  Proof.
    unfold mp_map. destruct (Z.ltb_spec (lim / 2) n); [apply grows_raise|].
    assert (lim / 2 <= lim' / 2) by (apply Z.div_le_mono; lia). destruct (Z.ltb_spec (lim' / 2) n); [lia|].
    apply grows_bind; [apply mp_pairs_grows|]. intros. apply grows_ok.
  Qed.
End MsgPack.

Lemma mp_unpack_grows s lim lim' f : lim <= lim' -> 0 <= lim -> forall f', (f <= f')%nat -> forall b, grows s (mp_unpack f lim b) (mp_unpack f' lim' (b ++ s)).
Proof.
  intros LL L0. induction f as [|f IH]; intros f' F b; [apply grows_raise|]. destruct f' as [|f']; [lia|].
  assert (DD : forall b, grows s (mp_unpack f lim b) (mp_unpack f' lim' (b ++ s))) by (intros; apply IH; lia).
  destruct b as [|a r]; [apply grows_raise|]. cbn [mp_unpack app].
  repeat match goal with |- grows _ (if ?c then _ else _) _ => destruct c end;
    try apply grows_raise; try apply grows_ok;
    try (apply grows_bind; [apply take_int_grows|intros]);
    try (destruct f as [|f]; [apply grows_raise|destruct f' as [|f']; [lia|cbn [mp_nest]]]);
    first [ apply grows_ok | apply mp_str_grows; assumption | apply mp_bin_grows; assumption | apply mp_ext_grows; assumption
          | apply mp_array_grows; assumption | apply mp_map_grows; assumption ].
Qed.

(** Octets after a value are an error. *)
Lemma mp_loads_extra b s v : mp_loads b = Ok v -> s <> [] -> mp_loads (b ++ s) = Raise (ValueError ["unpack(b) received extra data."%string]).
Proof.
  unfold mp_loads. intros H NE. destruct (mp_unpack (S MP_STACK) (zlen b) b) as [[w r]|e] eqn:E; [|destruct e; discriminate].
  destruct r; [|discriminate]. eapply mp_unpack_grows in E; [rewrite E; cbn [app]|..].
  - destruct s; [congruence|reflexivity].
  - unfold zlen. rewrite app_length. lia.
  - unfold zlen. lia.
  - reflexivity.
Qed.

(** ** CBOR *)
Lemma cb_len_grows sub b s : grows s (cb_len sub b) (cb_len sub (b ++ s)).
Proof.
  unfold cb_len. repeat match goal with |- grows _ (if ?c then _ else _) _ => destruct c end;
    try apply grows_raise; try apply grows_ok; (apply grows_bind; [apply take_int_grows|intros; apply grows_ok]).
Qed.
Lemma cb_uint_grows sub b s : grows s (cb_uint sub b) (cb_uint sub (b ++ s)).
Proof. unfold cb_uint. apply grows_bind; [apply cb_len_grows|]. intros [z|] r _; [apply grows_ok|apply grows_raise]. Qed.
Lemma cb_chunks_grows s major f : forall f' b, (f <= f')%nat -> grows s (cb_chunks f major b) (cb_chunks f' major (b ++ s)).
Proof.
  induction f as [|f IH]; intros f' b F; [apply grows_raise|]. destruct f' as [|f']; [lia|]. destruct b as [|a r]; [apply grows_raise|].
  cbn [cb_chunks app]. cbv zeta. destruct (byte_Z a =? 255); [apply grows_ok|]. destruct (byte_Z a / 32 =? major); [|apply grows_raise].
  apply grows_bind; [apply cb_uint_grows|]. intros. apply grows_bind; [apply take_grows|]. intros x q _.
  destruct ((major =? 3) && negb (utf8_valid x)); [apply grows_raise|]. apply grows_bind; [apply IH; lia|]. intros. apply grows_ok.
Qed.
Lemma cb_string_grows s major sub f f' b : (f <= f')%nat -> grows s (cb_string f major sub b) (cb_string f' major sub (b ++ s)).
Proof.
  intros F. unfold cb_string. apply grows_bind; [apply cb_len_grows|]. intros [z|] r _; [apply take_grows|apply cb_chunks_grows; exact F].
Qed.
Section Cbor.
  Context (s : bytes) (dec dec' : bytes -> res (val * bytes)) (DD : forall b, grows s (dec b) (dec' (b ++ s))).
  Lemma cb_pairs_grows n : forall d b, grows s (cb_pairs dec n d b) (cb_pairs dec' n d (b ++ s)).
  Proof.
    induction n as [|n IH]; intros d b; cbn [cb_pairs]; [apply grows_ok|]. apply grows_bind; [apply DD|]. intros k r _.
    apply grows_bind; [apply DD|]. intros. destruct (hashable k); [apply IH|apply grows_raise].
  Qed.
  Lemma cb_items_break_grows f : forall f' b, (f <= f')%nat -> grows s (cb_items_break dec f b) (cb_items_break dec' f' (b ++ s)).
  Proof.
    induction f as [|f IH]; intros f' b F; [apply grows_raise|]. destruct f' as [|f']; [lia|]. destruct b as [|a r]; [apply grows_raise|].
    cbn [cb_items_break app]. destruct (byte_Z a =? 255); [apply grows_ok|]. apply grows_bind; [apply (DD (a :: r))|]. intros.
    apply grows_bind; [apply IH; lia|]. intros. apply grows_ok.
  Qed.
  Lemma cb_pairs_break_grows f : forall f' d b, (f <= f')%nat -> grows s (cb_pairs_break dec f d b) (cb_pairs_break dec' f' d (b ++ s)).
  Proof.
    induction f as [|f IH]; intros f' d b F; [apply grows_raise|]. destruct f' as [|f']; [lia|]. destruct b as [|a r]; [apply grows_raise|].
    cbn [cb_pairs_break app]. destruct (byte_Z a =? 255); [apply grows_ok|]. apply grows_bind; [apply (DD (a :: r))|]. intros k q _.
    apply grows_bind; [apply DD|]. intros. destruct (hashable k); [apply IH; lia|apply grows_raise].
  Qed.
End Cbor.
Lemma cb_big_grows s x y neg : grows s x y -> grows s (cb_big x neg) (cb_big y neg).
Proof.
  intros H. unfold cb_big. apply grows_bind; [exact H|]. intros v r _. destruct v; try apply grows_raise. destruct b; [apply grows_raise|apply grows_ok].
Qed.
Lemma cb_special_grows s sub b : grows s (cb_special sub b) (cb_special sub (b ++ s)).
Proof.
  unfold cb_special. repeat match goal with |- grows _ (if ?c then _ else _) _ => destruct c end;
    try apply grows_raise; try apply grows_ok; (apply grows_bind; [first [apply take_int_grows|apply take_grows]|intros; apply grows_ok]).
Qed.
Lemma cb_dec_grows s f : forall f' b, (f <= f')%nat -> grows s (cb_dec f b) (cb_dec f' (b ++ s)).
Proof.
  induction f as [|f IH]; intros f' b F; [apply grows_raise|]. destruct f' as [|f']; [lia|].
  assert (DD : forall b, grows s (cb_dec f b) (cb_dec f' (b ++ s))) by (intros; apply IH; lia).
  destruct b as [|a r]; [apply grows_raise|]. cbn [cb_dec app]. cbv zeta.
  destruct (_ =? 0); [apply grows_bind; [apply cb_uint_grows|intros; apply grows_ok]|].
  destruct (_ =? 1); [apply grows_bind; [apply cb_uint_grows|intros; apply grows_ok]|].
  destruct (_ =? 2); [apply grows_bind; [apply cb_string_grows; rewrite app_length; lia|intros; apply grows_ok]|].
  destruct (_ =? 3). { apply grows_bind; [apply cb_string_grows; rewrite app_length; lia|]. intros x q _. destruct (utf8_valid x); [apply grows_ok|apply grows_raise]. }
  destruct (_ =? 4). { apply grows_bind; [apply cb_len_grows|]. intros [z|] q _; (apply grows_bind; [|intros; apply grows_ok]).
    - apply mp_items_grows; assumption.
    - apply cb_items_break_grows; [assumption|rewrite app_length; lia]. }
  destruct (_ =? 5). { apply grows_bind; [apply cb_len_grows|]. intros [z|] q _; (apply grows_bind; [|intros; apply grows_ok]).
    - apply cb_pairs_grows; assumption.
    - apply cb_pairs_break_grows; [assumption|rewrite app_length; lia]. }
  destruct (_ =? 6); [|apply cb_special_grows].
  apply grows_bind; [apply cb_uint_grows|]. intros tag q _.
  destruct (tag =? 2); [apply cb_big_grows; apply DD|]. destruct (tag =? 3); [apply cb_big_grows; apply DD|apply grows_raise].
Qed.
Lemma cb_loads_extra b s v : cb_loads b = Ok v -> cb_loads (b ++ s) = Ok v.
Proof.
  unfold cb_loads, cb_loads_within. destruct (cb_dec (S (length b)) b) as [[w r]|e] eqn:E; cbn [bind]; [|discriminate]. intros [= <-].
  apply (cb_dec_grows s (S (length b)) (S (length (b ++ s)))) in E; [|rewrite app_length; lia]. rewrite E. reflexivity.
Qed.

(** ** JSON *)
Definition delim (r : text) : Prop := match r with c :: _ => is_ws c = true \/ c = 44 \/ c = 93 \/ c = 125 | [] => False end.
Definition closed (v : val) : Prop := match v with VStr _ | VList _ | VDict _ => True | _ => False end.

Lemma prepend_grows s p x y : grows s x y -> grows s (prepend p x) (prepend p y).
Proof. intros H. unfold prepend. apply grows_bind; [exact H|]. intros. apply grows_ok. Qed.
Definition starts_u (q : text) : bool := match q with b :: w :: _ => (b =? 92) && (w =? 117) | _ => false end.
Lemma js_string_grows s n : forall t, (length t <= n)%nat -> grows s (js_string t) (js_string (t ++ s)).
Proof.
  induction n as [|n IH]; intros t L; [destruct t; [apply grows_raise|cbn in L; lia]|].
  destruct t as [|c r]; [apply grows_raise|]. cbn [app js_string length] in *.
  destruct (c =? 34); [apply grows_ok|]. destruct (c =? 92).
  - destruct r as [|e r1]; [apply grows_raise|]. cbn [app length] in *. destruct (e =? 117).
    + destruct r1 as [|h1 [|h2 [|h3 [|h4 r2]]]]; try apply grows_raise. cbn [app length] in *.
      destruct (hex4 h1 h2 h3 h4) as [u|]; [|apply grows_raise].
      destruct (is_high u); [|apply prepend_grows, IH; lia].
      assert (R : forall q, starts_u q = false ->
        match q with
        | b :: w :: g1 :: g2 :: g3 :: g4 :: r3 =>
            if (b =? 92) && (w =? 117) then
              match hex4 g1 g2 g3 g4 with
              | None => js_error "Invalid \uXXXX escape"
              | Some v => if is_low v then prepend (65536 + 1024 * (u - 55296) + (v - 56320)) (js_string r3) else prepend u (js_string q)
              end
            else prepend u (js_string q)
        | _ => prepend u (js_string q)
        end = prepend u (js_string q)).
      { intros [|b [|w [|g1 [|g2 [|g3 [|g4 r3]]]]]] E; try reflexivity. cbn [starts_u] in E. rewrite E. reflexivity. }
      destruct (starts_u r2) eqn:E2.
      * destruct r2 as [|b [|w [|g1 [|g2 [|g3 [|g4 r3]]]]]]; try discriminate E2; cbn [starts_u] in E2;
          try (apply andb_true_iff in E2; destruct E2 as [Eb Ew]; apply Z.eqb_eq in Eb, Ew; subst b w; apply grows_raise).
        rewrite E2. cbn [app]. rewrite E2. destruct (hex4 g1 g2 g3 g4) as [v|]; [|apply grows_raise]. cbn [length] in L.
        destruct (is_low v); [apply prepend_grows, IH; lia|]. apply prepend_grows. apply (IH (b :: w :: g1 :: g2 :: g3 :: g4 :: r3)). cbn [length]. lia.
      * rewrite (R r2 E2). destruct (starts_u (r2 ++ s)) eqn:E3; [|rewrite (R _ E3); apply prepend_grows, IH; lia].
        destruct r2 as [|b [|w r2]]; [apply grows_raise| |cbn [app starts_u] in E2, E3; congruence].
        assert (b = 92). { destruct s as [|w s]; [discriminate E3|]. cbn [app starts_u] in E3. apply andb_true_iff in E3. lia. }
        subst b. apply grows_raise.
    + destruct (unescape e) as [p|]; [|apply grows_raise]. apply prepend_grows. apply IH. lia.
  - destruct (c <? 32); [apply grows_raise|]. apply prepend_grows. apply IH. lia.
Qed.

Lemma skip_ws_app t s c r : skip_ws t = c :: r -> skip_ws (t ++ s) = c :: r ++ s.
Proof.
  induction t as [|x t IH]; cbn [skip_ws app]; [discriminate|]. destruct (is_ws x); [exact IH|]. intros [= -> ->]. reflexivity.
Qed.
Lemma skip_ws_app_nil t s : skip_ws t = [] -> skip_ws (t ++ s) = skip_ws s.
Proof. induction t as [|x t IH]; cbn [skip_ws app]; [reflexivity|]. destruct (is_ws x); [exact IH|discriminate]. Qed.
Lemma skip_ws_delim r c q : skip_ws r = c :: q -> c = 44 \/ c = 93 \/ c = 125 -> delim r.
Proof.
  destruct r as [|x r]; cbn [skip_ws delim]; [discriminate|]. destruct (is_ws x); [auto|]. intros [= -> ->]. auto.
Qed.
Lemma delim_nonempty r : delim r -> r <> [].
Proof. destruct r; [contradiction|discriminate]. Qed.

Lemma span_digits_ext t d r s : span_digits t = (d, r) -> r <> [] -> span_digits (t ++ s) = (d, r ++ s).
Proof.
  revert d. induction t as [|c t IH]; intros d; cbn [span_digits app]; [intros [= <- <-]; congruence|].
  destruct (is_digit c); [|intros [= <- <-] _; reflexivity].
  destruct (span_digits t) as [d' r']. intros [= <- <-] N. rewrite (IH d' eq_refl N). reflexivity.
Qed.
Lemma js_natural_ext t i r s : js_natural t = Some (i, r) -> r <> [] -> js_natural (t ++ s) = Some (i, r ++ s).
Proof.
  unfold js_natural. destruct t as [|c t]; [discriminate|]. cbn [app]. destruct (c =? 48); [intros [= <- <-] _; reflexivity|].
  destruct (is_digit c); [|discriminate]. intros E N. injection E as E. f_equal. apply (span_digits_ext (c :: t)); assumption.
Qed.
Lemma delim_not r c q : r = c :: q -> delim r -> c <> 46 /\ c <> 101 /\ c <> 69.
Proof.
  intros -> [W|[->|[->| ->]]]; [|lia|lia|lia]. unfold is_ws in W. rewrite !orb_true_iff, !Z.eqb_eq in W. lia.
Qed.
Lemma js_exp_ext t e r s : js_exp t = (e, r) -> delim r -> js_exp (t ++ s) = (e, r ++ s).
Proof.
  unfold js_exp. destruct t as [|c t]; [intros [= <- <-] []|]. cbn [app]. destruct ((c =? 101) || (c =? 69)) eqn:C.
  - destruct t as [|x t].
    { cbn [span_digits]. intros [= <- <-] D. pose proof (delim_not _ c [] eq_refl D). rewrite orb_true_iff, !Z.eqb_eq in C. lia. }
    cbn [app]. destruct ((x =? 43) || (x =? 45)).
    + destruct (span_digits t) as [d r2] eqn:S. destruct d as [|d1 d].
      { intros [= <- <-] D. pose proof (delim_not _ c (x :: t) eq_refl D). rewrite orb_true_iff, !Z.eqb_eq in C. lia. }
      intros [= <- <-] D. rewrite (span_digits_ext _ _ _ s S (delim_nonempty _ D)). reflexivity.
    + destruct (span_digits (x :: t)) as [d r2] eqn:S. destruct d as [|d1 d].
      { intros [= <- <-] D. pose proof (delim_not _ c (x :: t) eq_refl D). rewrite orb_true_iff, !Z.eqb_eq in C. lia. }
      intros [= <- <-] D. change (x :: t ++ s) with ((x :: t) ++ s). rewrite (span_digits_ext _ _ _ s S (delim_nonempty _ D)). reflexivity.
  - intros [= <- <-] _. reflexivity.
Qed.
Lemma js_frac_ext t f r e q s : js_frac t = (f, r) -> js_exp r = (e, q) -> delim q -> js_frac (t ++ s) = (f, r ++ s).
Proof.
  unfold js_frac. destruct t as [|c t]; [intros [= <- <-] [= <- <-] []|]. cbn [app]. destruct (Z.eqb_spec c 46) as [->|C].
  - destruct (span_digits t) as [d r2] eqn:S. destruct d as [|d1 d].
    + intros [= <- <-]. cbn. intros [= <- <-] D. pose proof (delim_not _ 46 t eq_refl D). lia.
    + intros [= <- <-] E D. rewrite (span_digits_ext _ _ _ s S); [reflexivity|]. intros ->. injection E as <- <-. exact D.
  - intros [= <- <-] _ _. reflexivity.
Qed.
Lemma js_number_ext t n r s : js_number t = Some (n, r) -> delim r -> js_number (t ++ s) = Some (n, r ++ s).
Proof.
  unfold js_number. destruct t as [|c t]; [discriminate|]. unfold js_sign. cbn [app].
  assert (K : forall sg t0, match js_natural t0 with None => None | Some (i, t2) => let (f, t3) := js_frac t2 in let (e, t4) := js_exp t3 in Some (mkNumber sg i (f ++ e), t4) end = Some (n, r) ->
    delim r -> match js_natural (t0 ++ s) with None => None | Some (i, t2) => let (f, t3) := js_frac t2 in let (e, t4) := js_exp t3 in Some (mkNumber sg i (f ++ e), t4) end = Some (n, r ++ s)).
  { intros sg t0. destruct (js_natural t0) as [[i t2]|] eqn:N; [|discriminate]. destruct (js_frac t2) as [f t3] eqn:F. destruct (js_exp t3) as [e t4] eqn:E.
    intros [= <- <-] D. rewrite (js_natural_ext _ _ _ s N).
    - rewrite (js_frac_ext _ _ _ _ _ s F E D), (js_exp_ext _ _ _ s E D). reflexivity.
    - intros ->. cbn in F. injection F as <- <-. cbn in E. injection E as <- <-. exact D. }
  destruct (c =? 45); [apply K|]. apply (K [] (c :: t)).
Qed.

Lemma strip_ext p t r s : strip p t = Some r -> strip p (t ++ s) = Some (r ++ s).
Proof.
  revert t. induction p as [|c p IH]; intros t; cbn [strip]; [intros [= <-]; destruct t; reflexivity|].
  destruct t as [|x t]; [discriminate|]. cbn [app strip]. destruct (c =? x); [apply IH|discriminate].
Qed.
Lemma strip_head p c x t : c <> x -> strip (c :: p) (x :: t) = None.
Proof. intros N. cbn [strip]. destruct (Z.eqb_spec c x); [contradiction|reflexivity]. Qed.
Lemma strip_some_head c p x t r : strip (c :: p) (x :: t) = Some r -> c = x.
Proof. cbn [strip]. destruct (Z.eqb_spec c x); [auto|discriminate]. Qed.
Lemma js_number_head t n r : js_number t = Some (n, r) ->
  (exists c q, t = c :: q /\ 48 <= c <= 57) \/ (exists c q, t = 45 :: c :: q /\ 48 <= c <= 57).
Proof.
  unfold js_number, js_sign. destruct t as [|c t]; [discriminate|].
  assert (K : forall c t, js_natural (c :: t) <> None -> 48 <= c <= 57).
  { intros x y. unfold js_natural. destruct (Z.eqb_spec x 48); [lia|]. destruct (is_digit x) eqn:D; [|congruence]. unfold is_digit in D. lia. }
  destruct (Z.eqb_spec c 45) as [->|C].
  - intros H. right. destruct t as [|x t]; [discriminate|]. exists x, t. split; [reflexivity|]. apply (K x t). intros Q. rewrite Q in H. discriminate.
  - intros H. left. exists c, t. split; [reflexivity|]. apply (K c t). intros Q. rewrite Q in H. discriminate.
Qed.

Section JsonExt.
  Context (fl : floats) (s : text).
  Lemma js_word_ext t v r : js_word fl t = Ok (v, r) -> delim r -> js_word fl (t ++ s) = Ok (v, r ++ s) /\ ~ closed v.
  Proof.
    unfold js_word.
    change (codes "null") with [110; 117; 108; 108]. change (codes "true") with [116; 114; 117; 101].
    change (codes "false") with [102; 97; 108; 115; 101]. change (codes "NaN") with [78; 97; 78].
    change (codes "Infinity") with [73; 110; 102; 105; 110; 105; 116; 121].
    change (codes "-Infinity") with [45; 73; 110; 102; 105; 110; 105; 116; 121].
    destruct t as [|c t]; [discriminate|].
    destruct (strip [110; 117; 108; 108] (c :: t)) eqn:E1.
    { intros [= <- <-] _. rewrite (strip_ext _ _ _ s E1). split; [reflexivity|auto]. }
    destruct (strip [116; 114; 117; 101] (c :: t)) eqn:E2.
    { intros [= <- <-] _. pose proof (strip_some_head _ _ _ _ _ E2) as <-. rewrite (strip_ext _ _ _ s E2). cbn [app]. rewrite strip_head by lia. split; [reflexivity|auto]. }
    destruct (strip [102; 97; 108; 115; 101] (c :: t)) eqn:E3.
    { intros [= <- <-] _. pose proof (strip_some_head _ _ _ _ _ E3) as <-. rewrite (strip_ext _ _ _ s E3). cbn [app]. rewrite !strip_head by lia. split; [reflexivity|auto]. }
    destruct (strip [78; 97; 78] (c :: t)) eqn:E4.
    { intros [= <- <-] _. pose proof (strip_some_head _ _ _ _ _ E4) as <-. rewrite (strip_ext _ _ _ s E4). cbn [app]. rewrite !strip_head by lia. split; [reflexivity|auto]. }
    destruct (strip [73; 110; 102; 105; 110; 105; 116; 121] (c :: t)) eqn:E5.
    { intros [= <- <-] _. pose proof (strip_some_head _ _ _ _ _ E5) as <-. rewrite (strip_ext _ _ _ s E5). cbn [app]. rewrite !strip_head by lia. split; [reflexivity|auto]. }
    destruct (strip [45; 73; 110; 102; 105; 110; 105; 116; 121] (c :: t)) eqn:E6.
    { intros [= <- <-] _. pose proof (strip_some_head _ _ _ _ _ E6) as <-. rewrite (strip_ext _ _ _ s E6). cbn [app]. rewrite !strip_head by lia. split; [reflexivity|auto]. }
    destruct (js_number (c :: t)) as [[n q]|] eqn:J; [|discriminate].
    destruct (number_value fl n) as [w|e] eqn:NV; cbn [bind]; [|discriminate]. intros [= <- <-] D. rewrite (js_number_ext _ _ _ s J D).
    rewrite NV. cbn [bind]. split.
    - destruct (js_number_head _ _ _ J) as [(x & y & [= -> ->] & X)|(x & y & [= -> ->] & X)]; cbn [app].
      + rewrite !strip_head by lia. reflexivity.
      + rewrite !(strip_head _ _ 45) by lia. cbn [strip]. rewrite Z.eqb_refl. destruct (Z.eqb_spec 73 x); [lia|]. reflexivity.
    - unfold number_value in NV. destruct (n_rest n); [destruct (MAX_DIGITS <? zlen (n_int n)); [discriminate|]|]; injection NV as <-; auto.
  Qed.

  (** A value followed by a delimiter, or closed by itself, is read the same way when more follows. *)
  Definition js_ext (dec dec' : text -> res (val * text)) : Prop :=
    (forall x, dec [] <> Ok x) /\ forall t v r, dec t = Ok (v, r) -> delim r \/ closed v -> dec' (t ++ s) = Ok (v, r ++ s).

  Lemma js_elems_nil dec f x : (forall x, dec [] <> Ok x) -> js_elems dec f [] <> Ok x.
  Proof. intros D. destruct f; cbn [js_elems]; [discriminate|]. destruct (dec []) as [[y r]|e]; [exfalso; exact (D _ eq_refl)|discriminate]. Qed.
  Lemma js_elems_ext dec dec' : js_ext dec dec' -> forall f f' t, (f <= f')%nat -> grows s (js_elems dec f t) (js_elems dec' f' (t ++ s)).
  Proof.
    intros [D0 DD]. induction f as [|f IH]; intros f' t F; [apply grows_raise|]. destruct f' as [|f']; [lia|].
    intros l q. cbn [js_elems]. destruct (dec t) as [[x r]|e] eqn:E; cbn [bind]; [|discriminate].
    destruct (skip_ws r) as [|c r1] eqn:W; [discriminate|].
    destruct (Z.eqb_spec c 93) as [->|C].
    - intros [= <- <-]. rewrite (DD _ _ _ E); [cbn [bind]|left; eapply skip_ws_delim; [exact W|auto]]. rewrite (skip_ws_app _ s _ _ W). reflexivity.
    - destruct (Z.eqb_spec c 44) as [->|C']; [|discriminate].
      destruct (js_elems dec f (skip_ws r1)) as [[l' r2]|e] eqn:J; cbn [bind]; [|discriminate]. intros [= <- <-].
      rewrite (DD _ _ _ E); [cbn [bind]|left; eapply skip_ws_delim; [exact W|auto]]. rewrite (skip_ws_app _ s _ _ W). cbn [Z.eqb Pos.eqb].
      assert (NE : skip_ws (r1 ++ s) = skip_ws r1 ++ s).
      { destruct (skip_ws r1) as [|y z] eqn:Y; [exfalso; exact (js_elems_nil _ _ _ D0 J)|]. apply skip_ws_app. exact Y. }
      rewrite NE. rewrite (IH f' _ ltac:(lia) _ _ J). reflexivity.
  Qed.
  Lemma js_members_ext dec dec' : js_ext dec dec' -> forall f f' d t, (f <= f')%nat -> grows s (js_members dec f d t) (js_members dec' f' d (t ++ s)).
  Proof.
    intros [D0 DD]. induction f as [|f IH]; intros f' d t F; [apply grows_raise|]. destruct f' as [|f']; [lia|].
    intros l q. cbn [js_members]. destruct t as [|x t]; [discriminate|]. cbn [app]. destruct (x =? 34); [|discriminate].
    destruct (js_string t) as [[k r1]|e] eqn:K; cbn [bind]; [|discriminate]. rewrite (js_string_grows s (length t) t ltac:(lia) _ _ K). cbn [bind].
    destruct (skip_ws r1) as [|c r2] eqn:W; [discriminate|]. rewrite (skip_ws_app _ s _ _ W). destruct (c =? 58); [|discriminate].
    destruct (dec (skip_ws r2)) as [[v r3]|e] eqn:E; cbn [bind]; [|discriminate].
    destruct (skip_ws r3) as [|g r4] eqn:W3; [discriminate|].
    assert (NE : skip_ws (r2 ++ s) = skip_ws r2 ++ s).
    { destruct (skip_ws r2) as [|y z] eqn:Y; [exfalso; exact (D0 _ E)|]. apply skip_ws_app. exact Y. }
    destruct (Z.eqb_spec g 125) as [->|C].
    - intros [= <- <-]. rewrite NE, (DD _ _ _ E); [cbn [bind]|left; eapply skip_ws_delim; [exact W3|auto]]. rewrite (skip_ws_app _ s _ _ W3). reflexivity.
    - destruct (Z.eqb_spec g 44) as [->|C']; [|discriminate]. intros J.
      rewrite NE, (DD _ _ _ E); [cbn [bind]|left; eapply skip_ws_delim; [exact W3|auto]]. rewrite (skip_ws_app _ s _ _ W3). cbn [Z.eqb Pos.eqb].
      assert (NE4 : skip_ws (r4 ++ s) = skip_ws r4 ++ s).
      { destruct (skip_ws r4) as [|y z] eqn:Y; [exfalso; destruct f; discriminate|]. apply skip_ws_app. exact Y. }
      rewrite NE4. apply (IH f' _ _ ltac:(lia) _ _ J).
  Qed.

  Lemma js_dec_nil f x : js_dec fl f [] <> Ok x.
  Proof. destruct f; discriminate. Qed.
  Lemma js_dec_ext f : forall f', (f <= f')%nat -> js_ext (js_dec fl f) (js_dec fl f').
  Proof.
    induction f as [|f IH]; intros f' F; (split; [intros x; apply js_dec_nil|]); intros t v r; [discriminate|]. destruct f' as [|f']; [lia|].
    assert (DD : js_ext (js_dec fl f) (js_dec fl f')) by (apply IH; lia). cbn [js_dec].
    destruct t as [|c t]; [discriminate|]. cbn [app]. destruct (c =? 34).
    { destruct (js_string t) as [[k r1]|e] eqn:K; cbn [bind]; [|discriminate]. intros [= <- <-] _. rewrite (js_string_grows s (length t) t ltac:(lia) _ _ K). reflexivity. }
    destruct (c =? 91).
    { destruct f as [|g]; [discriminate|]. destruct f' as [|g']; [lia|]. cbn [js_nest]. set (f := S g) in *. set (f' := S g') in *. destruct (skip_ws t) as [|e r1] eqn:W; [discriminate|]. rewrite (skip_ws_app _ s _ _ W). destruct (e =? 93); [intros [= <- <-] _; reflexivity|].
      destruct (js_elems (js_dec fl f) (S (length t)) (e :: r1)) as [[l r2]|x] eqn:J; cbn [bind]; [|discriminate]. intros [= <- <-] _.
      change (e :: r1 ++ s) with ((e :: r1) ++ s). rewrite (js_elems_ext _ _ DD (S (length t)) (S (length (t ++ s))) (e :: r1) ltac:(rewrite app_length; lia) _ _ J). reflexivity. }
    destruct (c =? 123).
    { destruct f as [|g]; [discriminate|]. destruct f' as [|g']; [lia|]. cbn [js_nest]. set (f := S g) in *. set (f' := S g') in *. destruct (skip_ws t) as [|e r1] eqn:W; [discriminate|]. rewrite (skip_ws_app _ s _ _ W). destruct (e =? 125); [intros [= <- <-] _; reflexivity|].
      destruct (js_members (js_dec fl f) (S (length t)) [] (e :: r1)) as [[l r2]|x] eqn:J; cbn [bind]; [|discriminate]. intros [= <- <-] _.
      change (e :: r1 ++ s) with ((e :: r1) ++ s). rewrite (js_members_ext _ _ DD (S (length t)) (S (length (t ++ s))) [] (e :: r1) ltac:(rewrite app_length; lia) _ _ J). reflexivity. }
    intros H [D|D].
    - change (c :: t ++ s) with ((c :: t) ++ s). apply (js_word_ext _ _ _ H D).
    - exfalso. revert H D. clear. unfold js_word.
      repeat match goal with |- context [strip ?p ?t] => destruct (strip p t); [intros [= <- _] D; exact D|] end.
      destruct (js_number (c :: t)) as [[n q]|]; [|discriminate]. unfold number_value. destruct (n_rest n); [destruct (MAX_DIGITS <? zlen (n_int n)); [discriminate|]|]; cbn [bind]; intros [= <- _] D; exact D.
  Qed.
End JsonExt.

Definition blank (b : bytes) : Prop := exists u, str_points b = Some u /\ forallb is_ws u = true.
Lemma skip_ws_blank u : skip_ws u = [] <-> forallb is_ws u = true.
Proof. induction u as [|c u IH]; cbn [skip_ws forallb]; [tauto|]. destruct (is_ws c); cbn [andb]; [exact IH|split; discriminate]. Qed.
Lemma js_loads_extra fl b s v : js_loads fl b = Ok v -> closed v ->
  (blank s /\ js_loads fl (b ++ s) = Ok v) \/ (~ blank s /\ exists m, js_loads fl (b ++ s) = Raise (ValueError m)).
Proof.
  unfold js_loads, js_decode, blank. destruct (str_points b) as [t|] eqn:U; [|discriminate]. intros H C. rewrite (str_points_app _ _ s U).
  destruct (str_points s) as [u|].
  2:{ right. split; [intros (w & W & _); discriminate|eauto]. }
  destruct (js_dec fl (S (length t)) (skip_ws t)) as [[w r]|e] eqn:E; cbn [bind] in H; [|discriminate].
  destruct (skip_ws r) eqn:W; [|discriminate]. injection H as ->.
  assert (NE : skip_ws (t ++ u) = skip_ws t ++ u).
  { destruct (skip_ws t) as [|y z] eqn:Y; [exfalso; exact (js_dec_nil _ _ _ E)|]. apply skip_ws_app. exact Y. }
  rewrite NE. rewrite (proj2 (js_dec_ext fl u (S (length t)) (S (length (t ++ u))) ltac:(rewrite app_length; lia)) _ _ _ E) by auto. cbn [bind].
  rewrite (skip_ws_app_nil _ _ W). destruct (skip_ws u) as [|x y] eqn:X.
  - left. split; [|reflexivity]. exists u. split; [reflexivity|]. apply skip_ws_blank. exact X.
  - right. split; [|unfold js_error; eauto]. intros (w & [= <-] & B). apply skip_ws_blank in B. congruence.
Qed.
