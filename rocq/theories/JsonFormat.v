(** * JsonFormat: json.loads reads exactly the texts of RFC 8259 and three further words (SpecJson). *)
From Coq Require Import String Ascii List ZArith Bool Lia.
From Verif Require Import PyBase Rawsocket Encoding EncodingFacts Utf8 Utf8Facts CodecBase CodecFacts Serializer SpecCodec MsgPack Json JsonFacts
  Float FloatFacts Codecs SpecFormat FormatFacts SpecJson NearestFacts DomainFacts CborFormat.
Import ListNotations.
Local Open Scope Z_scope.

Scheme element_mut := Induction for element Sort Prop
  with items_mut := Induction for items Sort Prop
  with members_mut := Induction for members Sort Prop
  with pair_mut := Induction for pair Sort Prop.
Combined Scheme element_all from element_mut, items_mut, members_mut, pair_mut.

(** ** Texts *)
Lemma surrogate_octets b c : 32 <= b < 64 -> 0 <= c < 64 ->
  is_code (53248 + 64 * b + c) = true /\ map byte_Z (Utf8.utf8_char (53248 + 64 * b + c)) = [237; 128 + b; 128 + c].
Proof.
  intros B C. set (p := 53248 + 64 * b + c). split; [unfold is_code; apply andb_true_iff; lia|]. unfold Utf8.utf8_char.
  destruct (Z.ltb_spec p 128); [lia|]. destruct (Z.ltb_spec p 2048); [lia|]. destruct (Z.ltb_spec p 65536); [|lia].
  assert (E1 : p / 4096 = 13) by (symmetry; apply (Z.div_unique _ _ _ (64 * (b - 0) + c)); lia).
  assert (E2 : p / 64 = 832 + b) by (symmetry; apply (Z.div_unique _ _ _ c); lia).
  assert (E3 : p mod 64 = c) by (symmetry; apply (Z.mod_unique _ _ (832 + b)); lia).
  assert (E4 : (832 + b) mod 64 = b) by (symmetry; apply (Z.mod_unique _ _ 13); lia).
  rewrite E1, E2, E3, E4. cbn [map]. rewrite !byte_Z_of by lia. reflexivity.
Qed.
Lemma chars_cons p ps os : chars (p :: ps) os ->
  (exists o os', utf8_char p o /\ chars ps os' /\ os = o ++ os') \/
  (exists b c os', 32 <= b < 64 /\ 0 <= c < 64 /\ chars ps os' /\ p = 53248 + 64 * b + c /\ os = 237 :: 128 + b :: 128 + c :: os').
Proof.
  remember (p :: ps) as q eqn:E. intros Ch. revert E. destruct Ch as [|p' ps' o os' C T|b c ps' os' B C T]; intros E; [discriminate|..].
  - injection E as -> ->. left. eauto 6.
  - remember (53248 + 64 * b + c) as p' eqn:P. injection E as E1 E2. subst ps'. right. exists b, c, os'. split; [exact B|]. split; [exact C|]. split; [exact T|]. split; [congruence|reflexivity].
Qed.
Lemma chars_iff ps : forall os, chars ps os <-> forallb is_code ps = true /\ os = map byte_Z (utf8_encode ps).
Proof.
  induction ps as [|p ps IH]; intros os; split.
  - inversion 1; subst. split; reflexivity.
  - intros [_ ->]. constructor.
  - unfold utf8_encode. cbn [forallb flat_map]. rewrite map_app. fold (utf8_encode ps). intros Ch. apply chars_cons in Ch as [(o & os' & C & T & ->)|(b & c & os' & B & C & T & Ep & ->)].
    + apply utf8_char_iff in C as [S ->]. apply IH in T as [S' ->]. rewrite S'. split; [|reflexivity].
      unfold is_scalar, is_code in *. rewrite !orb_true_iff, !andb_true_iff in *. lia.
    + destruct (surrogate_octets b c B C) as [S O]. rewrite <- Ep in S, O. apply IH in T as [S' ->]. rewrite S, S', O. split; reflexivity.
  - unfold utf8_encode. cbn [forallb flat_map]. rewrite map_app. fold (utf8_encode ps). rewrite andb_true_iff. intros [[S S'] ->].
    destruct (is_scalar p) eqn:Sc; [constructor; [apply utf8_char_iff; auto|apply IH; auto]|].
    assert (R : 55296 <= p < 57344). { unfold is_scalar, is_code in *. rewrite !orb_false_iff, !andb_false_iff in Sc. rewrite !andb_true_iff in S. lia. }
    pose proof (Z.div_mod p 64 ltac:(lia)) as D. pose proof (Z.mod_pos_bound p 64 ltac:(lia)) as M.
    destruct (surrogate_octets (p / 64 - 832) (p mod 64)) as [_ O]; [lia|lia|]. replace (53248 + 64 * (p / 64 - 832) + p mod 64) with p in O by lia. rewrite O.
    replace p with (53248 + 64 * (p / 64 - 832) + p mod 64) at 1 by lia. cbn [app]. constructor; [lia|lia|apply IH; auto].
Qed.
Lemma str_of_iff ps s : str_of ps s <-> forallb is_code ps = true /\ str_val ps = VStr s.
Proof.
  unfold str_of, str_val. rewrite chars_iff. split; intros [A B]; (split; [exact A|]).
  - apply map_value_inj in B. rewrite <- B. rewrite decode_encode_str. reflexivity.
  - injection B as <-. rewrite encode_decode_str. reflexivity.
Qed.

(** ** Strings *)
Lemma hexdigit_iff n c : hexdigit n c <-> hex_value c = Some n.
Proof.
  unfold hex_value. split.
  - intros [x H|x H|x H].
    + destruct (Z.leb_spec 48 x), (Z.leb_spec x 57); try lia. reflexivity.
    + destruct (Z.leb_spec 48 x), (Z.leb_spec x 57); try lia; destruct (Z.leb_spec 97 x), (Z.leb_spec x 102); try lia; cbn [andb]; f_equal; lia.
    + destruct (Z.leb_spec 48 x), (Z.leb_spec x 57); try lia; destruct (Z.leb_spec 97 x), (Z.leb_spec x 102); try lia;
        destruct (Z.leb_spec 65 x), (Z.leb_spec x 70); try lia; cbn [andb]; f_equal; lia.
  - destruct ((48 <=? c) && (c <=? 57)) eqn:A. { apply andb_true_iff in A. intros [= <-]. apply hex_number. lia. }
    destruct ((97 <=? c) && (c <=? 102)) eqn:B. { apply andb_true_iff in B. intros [= <-]. replace (c - 87) with (c - 97 + 10) by lia. apply hex_lower. lia. }
    destruct ((65 <=? c) && (c <=? 70)) eqn:C; [|discriminate]. apply andb_true_iff in C. intros [= <-]. replace (c - 55) with (c - 65 + 10) by lia. apply hex_upper. lia.
Qed.
Lemma unit_iff u x : SpecJson.unit u x <-> exists a b c d, x = [92; 117; a; b; c; d] /\ hex4 a b c d = Some u.
Proof.
  unfold hex4. split.
  - intros [n1 n2 n3 n4 a b c d A B C D]. rewrite hexdigit_iff in A, B, C, D. exists a, b, c, d. split; [reflexivity|]. rewrite A, B, C, D. f_equal. ring.
  - intros (a & b & c & d & -> & H). destruct (hex_value a) as [n1|] eqn:A; [|discriminate]. destruct (hex_value b) as [n2|] eqn:B; [|discriminate].
    destruct (hex_value c) as [n3|] eqn:C; [|discriminate]. destruct (hex_value d) as [n4|] eqn:D; [|discriminate]. assert (E : 4096 * n1 + 256 * n2 + 16 * n3 + n4 = u) by congruence.
    replace u with (16 * (16 * (16 * n1 + n2) + n3) + n4) by lia. constructor; apply hexdigit_iff; assumption.
Qed.
Lemma is_high_iff u : is_high u = true <-> high u.
Proof. unfold is_high, high. rewrite andb_true_iff. lia. Qed.
Lemma is_low_iff u : is_low u = true <-> low u.
Proof. unfold is_low, low. rewrite andb_true_iff. lia. Qed.
Lemma escapes_iff e c : In (e, c) escapes <-> unescape e = Some c.
Proof.
  unfold escapes, unescape. cbn [In]. split.
  - intros H. repeat (destruct H as [H|H]; [injection H as <- <-; reflexivity|]). contradiction.
  - repeat match goal with |- context [if ?e =? ?k then _ else _] => destruct (Z.eqb_spec e k) as [->|?]; [intros [= <-]; repeat (first [left; reflexivity|right])|] end.
    discriminate.
Qed.
(** What follows the body of a string begins with an escaped unit or not with a backslash and [u]. *)
Lemma body_next s t r : body s t ->
  (exists w y q, SpecJson.unit w y /\ t = y ++ q) \/
  (forall b w q, t ++ 34 :: r = b :: w :: q -> (b =? 92) && (w =? 117) = false).
Proof.
  intros [|c s' t' A B C D|e c s' t' E D|u w x y s' t' U H W L D|u x s' t' U N D].
  - right. cbn [app]. intros b w q [= <- _]. reflexivity.
  - right. cbn [app]. intros b w q [= <- _]. destruct (Z.eqb_spec c 92); [contradiction|reflexivity].
  - right. cbn [app]. intros b w q [= <- <- _]. apply escapes_iff in E. destruct (Z.eqb_spec e 117) as [->|]; [discriminate|reflexivity].
  - left. exists u, x, (y ++ t'). auto.
  - left. exists u, x, t'. auto.
Qed.
Lemma string_reads s t : body s t -> forall r, js_string (t ++ 34 :: r) = Ok (s, r).
Proof.
  induction 1 as [|c s t A B C D IH|e c s t E D IH|u w x y s t U H W L D IH|u x s t U N D IH]; intros r.
  - reflexivity.
  - cbn [app js_string]. destruct (Z.eqb_spec c 34); [contradiction|]. destruct (Z.eqb_spec c 92); [contradiction|]. destruct (Z.ltb_spec c 32); [lia|]. rewrite IH. reflexivity.
  - cbn [app js_string]. change (92 =? 34) with false. change (92 =? 92) with true. cbv iota. apply escapes_iff in E.
    destruct (Z.eqb_spec e 117) as [->|]; [discriminate|]. rewrite E, IH. reflexivity.
  - apply unit_iff in U as (a1 & b1 & c1 & d1 & -> & U). apply unit_iff in W as (a2 & b2 & c2 & d2 & -> & W). cbn [app js_string].
    change (92 =? 34) with false. change (92 =? 92) with true. change (117 =? 117) with true. cbn [andb]. rewrite U. apply is_high_iff in H. rewrite H, W.
    apply is_low_iff in L. rewrite L, IH. reflexivity.
  - apply unit_iff in U as (a1 & b1 & c1 & d1 & -> & U). cbn [app js_string].
    change (92 =? 34) with false. change (92 =? 92) with true. change (117 =? 117) with true. cbv iota. rewrite U. specialize (IH r).
    destruct (is_high u) eqn:H; [|rewrite IH; reflexivity]. apply is_high_iff in H.
    destruct (body_next s t r D) as [(w & y & q & W & ->)|X].
    + apply unit_iff in W as W'. destruct W' as (a2 & b2 & c2 & d2 & -> & W2). cbn [app] in *. change (92 =? 92) with true. change (117 =? 117) with true. cbn [andb]. rewrite W2.
      destruct (is_low w) eqn:L; [|rewrite IH; reflexivity]. exfalso. apply N. split; [exact H|]. apply is_low_iff in L. exists w, [92; 117; a2; b2; c2; d2], q. auto.
    + destruct (t ++ 34 :: r) as [|b [|w [|g1 [|g2 [|g3 [|g4 r3]]]]]] eqn:T; try (rewrite IH; reflexivity). rewrite (X b w _ eq_refl), IH. reflexivity.
Qed.
Lemma prepend_ok p x s r : prepend p x = Ok (s, r) -> exists s', s = p :: s' /\ x = Ok (s', r).
Proof. unfold prepend. destruct x as [[a b]|]; cbn [bind]; [|discriminate]. intros [= <- <-]. eauto. Qed.
Lemma string_cut n : forall t s r, (length t <= n)%nat -> js_string t = Ok (s, r) -> exists u, t = u ++ 34 :: r /\ body s u.
Proof.
  induction n as [|n IH]; intros t s r Le; [destruct t; [discriminate|cbn in Le; lia]|]. destruct t as [|c t]; [discriminate|]. cbn [js_string length] in *.
  destruct (Z.eqb_spec c 34) as [->|N1]. { intros [= <- <-]. exists []. split; [reflexivity|constructor]. }
  destruct (Z.eqb_spec c 92) as [->|N2].
  2:{ destruct (Z.ltb_spec c 32); [discriminate|]. intros P. apply prepend_ok in P as (s' & -> & P). apply IH in P as (u & -> & B); [|lia].
      exists (c :: u). split; [reflexivity|constructor; assumption]. }
  destruct t as [|e t]; [discriminate|]. cbn [length] in Le. destruct (Z.eqb_spec e 117) as [->|N3].
  2:{ destruct (unescape e) as [p|] eqn:E; [|discriminate]. intros P. apply prepend_ok in P as (s' & -> & P). apply IH in P as (u & -> & B); [|lia].
      exists (92 :: e :: u). split; [reflexivity|]. apply body_escape; [apply escapes_iff; exact E|exact B]. }
  destruct t as [|h1 [|h2 [|h3 [|h4 r2]]]]; try discriminate. cbn [length] in Le. destruct (hex4 h1 h2 h3 h4) as [u|] eqn:U; [|discriminate].
  assert (UN : SpecJson.unit u [92; 117; h1; h2; h3; h4]) by (apply unit_iff; eauto 6).
  assert (Single : forall s', js_string r2 = Ok (s', r) -> (high u -> forall w y q, SpecJson.unit w y -> low w -> r2 <> y ++ q) ->
    exists z, 92 :: 117 :: h1 :: h2 :: h3 :: h4 :: r2 = z ++ 34 :: r /\ body (u :: s') z).
  { intros s' P X. apply IH in P as (z & -> & B); [|lia]. exists ([92; 117; h1; h2; h3; h4] ++ z). split; [reflexivity|]. apply body_unit; [exact UN| |exact B].
    intros [H (w & y & q & W & L & ->)]. apply (X H w y (q ++ 34 :: r) W L). rewrite <- app_assoc. reflexivity. }
  destruct (is_high u) eqn:H.
  2:{ intros P. apply prepend_ok in P as (s' & -> & P). apply Single; [exact P|]. intros H'. apply is_high_iff in H'. congruence. }
  assert (Short : forall b w q, r2 = b :: w :: q -> (forall g1 g2 g3 g4 q', q = g1 :: g2 :: g3 :: g4 :: q' ->
      (b =? 92) && (w =? 117) = true -> forall v, hex4 g1 g2 g3 g4 = Some v -> is_low v = false) -> forall v y q, SpecJson.unit v y -> low v -> r2 <> y ++ q).
  { intros b w q E X v y q' V L. apply unit_iff in V as (g1 & g2 & g3 & g4 & -> & V). rewrite E. intros E'. injection E' as -> -> ->.
    apply is_low_iff in L. rewrite (X g1 g2 g3 g4 q' eq_refl eq_refl v V) in L. discriminate. }
  assert (Small : (length r2 < 6)%nat -> forall v y q, SpecJson.unit v y -> low v -> r2 <> y ++ q).
  { intros S v y q V _ ->. apply unit_iff in V as (g1 & g2 & g3 & g4 & -> & V). rewrite app_length in S. cbn in S. lia. }
  destruct r2 as [|b [|w [|g1 [|g2 [|g3 [|g4 r3]]]]]];
    try (intros P; apply prepend_ok in P as (s' & -> & P); apply Single; [exact P|]; intros _; apply Small; cbn; lia).
  destruct ((b =? 92) && (w =? 117)) eqn:BW.
  2:{ intros P. apply prepend_ok in P as (s' & -> & P). apply Single; [exact P|]. intros _. apply (Short b w _ eq_refl). intros; congruence. }
  destruct (hex4 g1 g2 g3 g4) as [v|] eqn:V; [|discriminate]. destruct (is_low v) eqn:L.
  2:{ intros P. apply prepend_ok in P as (s' & -> & P). apply Single; [exact P|]. intros _. apply (Short b w _ eq_refl). intros x1 x2 x3 x4 q E _ v' V'. injection E as <- <- <- <- _. congruence. }
  intros P. apply prepend_ok in P as (s' & -> & P). apply andb_true_iff in BW as [B1 B2]. apply Z.eqb_eq in B1, B2. subst b w. cbn [length] in Le.
  apply IH in P as (z & -> & B); [|lia]. exists ([92; 117; h1; h2; h3; h4] ++ [92; 117; g1; g2; g3; g4] ++ z). split; [reflexivity|].
  apply body_pair; [exact UN|apply is_high_iff; exact H|apply unit_iff; eauto 6|apply is_low_iff; exact L|exact B].
Qed.

(** ** Numbers *)
Definition ends (r : text) : Prop := match r with [] => True | c :: _ => is_digit c = false /\ c <> 46 /\ c <> 101 /\ c <> 69 end.
Lemma ends_no_digit r : ends r -> no_digit r.
Proof. destruct r; cbn; tauto. Qed.
Lemma exp_reads e r : exp_text e -> ends r -> js_exp (e ++ r) = (e, r).
Proof.
  intros [->|(x & s & d & -> & X & S & D0 & D)] R.
  - cbn [app]. destruct r as [|c r]; [reflexivity|]. destruct R as (_ & _ & A & B). unfold js_exp. destruct (Z.eqb_spec c 101); [contradiction|]. destruct (Z.eqb_spec c 69); [contradiction|]. reflexivity.
  - assert (J := js_exp_app (x :: s ++ d) [44]). cbn [app]. rewrite <- app_assoc. unfold js_exp. replace ((x =? 101) || (x =? 69)) with true by (destruct X; subst x; reflexivity).
    assert (Q : (match s ++ d ++ r with
             | x0 :: r' => if (x0 =? 43) || (x0 =? 45) then ([x0], r') else ([], s ++ d ++ r)
             | [] => ([], []) end) = (s, d ++ r)).
    { destruct S as [->|[->| ->]]; [|reflexivity|reflexivity]. cbn [app]. destruct d as [|y d]; [congruence|]. cbn [app].
      inversion D as [|? ? Y _]; subst. unfold is_digit in Y. apply andb_true_iff in Y.
      destruct (Z.eqb_spec y 43); [lia|]. destruct (Z.eqb_spec y 45); [lia|]. reflexivity. }
    rewrite Q. rewrite span_digits_app by (auto using ends_no_digit). destruct d; [congruence|]. reflexivity.
Qed.
Lemma number_reads n r : number_text n -> ends r -> js_number ((n_sign n ++ n_int n ++ n_rest n) ++ r) = Some (n, r).
Proof.
  intros (S & I0 & f & e & E & F & X) R. unfold js_number. destruct n as [s i q]. cbn [n_sign n_int n_rest] in *. subst q.
  rewrite <- !app_assoc.
  assert (Q : js_sign (s ++ i ++ f ++ e ++ r) = (s, i ++ f ++ e ++ r)).
  { destruct S as [->| ->]; [|reflexivity]. cbn [app]. destruct I0 as [->|(c & d & -> & C & D)]; [reflexivity|].
    unfold js_sign. cbn [app]. destruct (Z.eqb_spec c 45); [lia|reflexivity]. }
  rewrite Q.
  assert (ND : no_digit (e ++ r) /\ match e ++ r with c :: _ => c <> 46 | [] => True end).
  { destruct X as [->|(x & t & d & -> & X & _)]; cbn [app].
    - split; [apply ends_no_digit; exact R|]. destruct r; [exact Logic.I|]. apply R.
    - cbn. destruct X as [->| ->]; split; (reflexivity || discriminate). }
  assert (NF : no_digit (f ++ e ++ r)). { destruct F as [->|(d & -> & _)]; [apply ND|reflexivity]. }
  rewrite js_natural_app by assumption. rewrite js_frac_app by (auto; apply ND). rewrite exp_reads by assumption. reflexivity.
Qed.
Lemma number_cut t n r : js_number t = Some (n, r) -> number_text n.
Proof.
  unfold js_number. destruct (js_sign t) as [s t1] eqn:ES. destruct (js_natural t1) as [[i t2]|] eqn:EI; [|discriminate].
  destruct (js_frac t2) as [f t3] eqn:EF. destruct (js_exp t3) as [e t4] eqn:EE. intros [= <- <-]. unfold number_text. cbn [n_sign n_int n_rest].
  split; [|split; [|exists f, e; split; [reflexivity|split]]].
  - unfold js_sign in ES. destruct t as [|c t]; [injection ES as <- <-; auto|]. destruct (c =? 45); injection ES as <- <-; auto.
  - pose proof (js_natural_digits _ _ _ EI) as Dg. unfold js_natural in EI. destruct t1 as [|c t1]; [discriminate|]. destruct (Z.eqb_spec c 48); [injection EI as <- <-; left; reflexivity|].
    destruct (is_digit c) eqn:D; [|discriminate]. injection EI as EI. cbn [span_digits] in EI. rewrite D in EI. destruct (span_digits t1). injection EI as <- _.
    right. eexists c, _. split; [reflexivity|]. inversion Dg; subst. split; [|assumption]. unfold is_digit in D. apply andb_true_iff in D. lia.
  - unfold js_frac in EF. destruct t2 as [|c t2]; [injection EF as <- <-; left; reflexivity|]. destruct (c =? 46); [|injection EF as <- <-; left; reflexivity].
    pose proof (span_digits_digits t2) as Dg. destruct (span_digits t2) as [[|x d] r']; [injection EF as <- <-; left; reflexivity|]. injection EF as <- _.
    right. exists (x :: d). split; [reflexivity|]. split; [discriminate|exact Dg].
  - unfold js_exp in EE. destruct t3 as [|c t3]; [injection EE as <- <-; left; reflexivity|].
    destruct ((c =? 101) || (c =? 69)) eqn:C; [|injection EE as <- <-; left; reflexivity]. apply orb_true_iff in C. rewrite !Z.eqb_eq in C.
    destruct t3 as [|x t3]; [injection EE as <- <-; left; reflexivity|]. destruct ((x =? 43) || (x =? 45)) eqn:X.
    + apply orb_true_iff in X. rewrite !Z.eqb_eq in X. pose proof (span_digits_digits t3) as Dg. destruct (span_digits t3) as [[|y d] r']; [injection EE as <- _; left; reflexivity|]. injection EE as <- _.
      right. exists c, [x], (y :: d). split; [reflexivity|]. split; [exact C|]. split; [destruct X as [-> | ->]; auto|]. split; [discriminate|exact Dg].
    + pose proof (span_digits_digits (x :: t3)) as Dg. destruct (span_digits (x :: t3)) as [[|y d] r']; [injection EE as <- _; left; reflexivity|]. injection EE as <- _.
      right. exists c, [], (y :: d). split; [reflexivity|]. split; [exact C|]. split; [auto|]. split; [discriminate|exact Dg].
Qed.
Lemma digit_iff c : is_digit c = true <-> digit c.
Proof. unfold is_digit, digit. rewrite andb_true_iff. lia. Qed.
Lemma digits_iff d : digits d <-> Forall digit d.
Proof. unfold digits. split; apply Forall_impl; intros c; apply digit_iff. Qed.
Lemma whole_iff i : whole i <-> natural_text i.
Proof.
  split; [intros [|c d C D]; [left; reflexivity|right; exists c, d; split; [reflexivity|split; [exact C|apply digits_iff; exact D]]]|].
  intros [->|(c & d & -> & C & D)]; [constructor|]. apply whole_more; [exact C|apply digits_iff; exact D].
Qed.
Lemma decimal_dval d : forall acc, dval acc d = acc * 10 ^ count d + decimal d.
Proof.
  induction d as [|c d IH]; intros acc; [cbn; lia|]. rewrite dval_cons, IH. cbn [decimal]. unfold count. cbn [length]. rewrite Nat2Z.inj_succ, Z.pow_succ_r by lia. ring.
Qed.
Lemma decimal_value d : decimal d = digits_value d.
Proof. change (digits_value d) with (dval 0 d). rewrite decimal_dval. lia. Qed.
Lemma fraction_iff d f : fraction d f <-> f = point d /\ digits d.
Proof.
  split.
  - intros [|d0 N D]; [split; [reflexivity|constructor]|]. split; [destruct d0; [congruence|reflexivity]|apply digits_iff; exact D].
  - intros [-> D]. destruct d as [|c d]; [constructor|]. apply fraction_some; [discriminate|apply digits_iff; exact D].
Qed.
Lemma frac_point f : frac_text f -> f = point (tl f) /\ digits (tl f).
Proof. intros [->|(d & -> & N & D)]; [split; [reflexivity|constructor]|]. cbn [tl]. split; [destruct d; [congruence|reflexivity]|exact D]. Qed.
Lemma exp_signless c d : digits (c :: d) -> forall x, exp_value (x :: c :: d) = digits_value (c :: d).
Proof.
  intros D x. cbn [exp_value]. inversion D as [|? ? C _]; subst. unfold is_digit in C. apply andb_true_iff in C.
  destruct (Z.eqb_spec c 45); [lia|]. destruct (Z.eqb_spec c 43); [lia|]. reflexivity.
Qed.
Lemma power_iff x e : power x e <-> exp_text e /\ x = exp_value e.
Proof.
  split.
  - intros [|y d Y N D|y d Y N D|y d Y N D]; [split; [left; reflexivity|reflexivity]|..]; apply digits_iff in D; rewrite decimal_value; cbn [In] in Y.
    + split; [right; exists y, [], d; split; [reflexivity|]; split; [lia|]; auto|]. destruct d; [congruence|]. symmetry. apply exp_signless. exact D.
    + split; [right; exists y, [43], d; split; [reflexivity|]; split; [lia|]; auto|reflexivity].
    + split; [right; exists y, [45], d; split; [reflexivity|]; split; [lia|]; auto|reflexivity].
  - intros [[->|(y & s & d & -> & Y & S & N & D)] ->]; [constructor|]. assert (Y' : In y [101; 69]) by (cbn [In]; lia). destruct S as [->|[->| ->]]; cbn [app].
    + replace (exp_value (y :: d)) with (decimal d); [apply power_plain; [exact Y'|exact N|apply digits_iff; exact D]|]. rewrite decimal_value. destruct d; [congruence|]. symmetry. apply exp_signless. exact D.
    + change (exp_value (y :: 43 :: d)) with (digits_value d). rewrite <- decimal_value. apply power_plus; [exact Y'|exact N|apply digits_iff; exact D].
    + change (exp_value (y :: 45 :: d)) with (- digits_value d). rewrite <- decimal_value. apply power_minus; [exact Y'|exact N|apply digits_iff; exact D].
Qed.
Lemma sign_cases m s : sign m s <-> s = (if m then [45] else []).
Proof. split; [intros []; reflexivity|]. intros ->. destruct m; constructor. Qed.
Lemma digits_nonneg d : digits d -> 0 <= decimal d.
Proof. intros D. rewrite decimal_value. apply (dval_nonneg d D 0). lia. Qed.
Lemma natural_digits i : natural_text i -> digits i.
Proof. intros [->|(c & d & -> & C & D)]; [repeat constructor|]. constructor; [unfold is_digit; apply andb_true_iff; lia|exact D]. Qed.

(** A number and its value. *)
Definition numeral (v : val) (t : text) : Prop := exists n, number_text n /\ t = n_sign n ++ n_int n ++ n_rest n /\ number_value python_floats n = Ok v.
Lemma integer_numeral m s i : sign m s -> whole i -> count i <= 4300 -> numeral (VInt (if m then - decimal i else decimal i)) (s ++ i).
Proof.
  intros S W C. apply sign_cases in S. subst s. exists (mkNumber (if m then [45] else []) i []). unfold number_text, number_value. cbn [n_sign n_int n_rest].
  split; [split; [destruct m; auto|]; split; [apply whole_iff; exact W|]; exists [], []; split; [reflexivity|]; split; left; reflexivity|].
  split; [rewrite app_nil_r; reflexivity|]. unfold MAX_DIGITS, zlen. unfold count in C. destruct (Z.ltb_spec 4300 (Z.of_nat (length i))); [lia|]. rewrite decimal_value. destruct m; reflexivity.
Qed.
Lemma float_numeral m s i d f x e g : sign m s -> whole i -> fraction d f -> power x e -> f ++ e <> [] ->
  nearest_decimal (decimal (i ++ d)) (x - count d) g -> numeral (VFloat (signed m g)) (s ++ i ++ f ++ e).
Proof.
  intros S W F P N G. apply sign_cases in S. subst s. apply whole_iff in W. apply fraction_iff in F as [-> D]. apply power_iff in P as [X ->].
  exists (mkNumber (if m then [45] else []) i (point d ++ e)). unfold number_text, number_value. cbn [n_sign n_int n_rest].
  split; [split; [destruct m; auto|]; split; [exact W|]; exists (point d), e; split; [reflexivity|]; split; [apply point_frac; exact D|exact X]|].
  split; [reflexivity|]. destruct (point d ++ e) as [|c z] eqn:E; [congruence|]. rewrite <- E. cbn [float_of python_floats].
  rewrite parse_text; [|destruct m; auto|exact W|exact D|exact X]. apply nearest_decimal_iff in G; [|apply digits_nonneg, digits_app; split; [apply natural_digits; exact W|exact D]].
  rewrite G, decimal_value. unfold zlen, count, signed. destruct m; reflexivity.
Qed.
Lemma numeral_element lenient v t : numeral v t -> element lenient v t.
Proof.
  intros ([s i q] & (S & I0 & f & e & E & F & X) & -> & V). unfold number_value in V. cbn [n_sign n_int n_rest] in *. subst q.
  assert (S' : exists m, sign m s /\ s = if m then [45] else []). { destruct S as [->| ->]; [exists false|exists true]; split; try reflexivity; constructor. } destruct S' as (m & S' & Es).
  destruct (f ++ e) as [|c z] eqn:FE.
  - destruct (Z.ltb_spec MAX_DIGITS (zlen i)); [discriminate|]. injection V as <-. rewrite app_nil_r. subst s.
    enough (G : element lenient (VInt (if m then - decimal i else decimal i)) ((if m then [45] else []) ++ i)) by (rewrite decimal_value in G; destruct m; exact G).
    apply j_integer; [exact S'|apply whole_iff; exact I0|]. unfold MAX_DIGITS, zlen in *. unfold count. lia.
  - rewrite <- FE in V |- *. injection V as <-. destruct (frac_point f F) as [Ef D]. revert Ef D. generalize (tl f) as d. intros d Ef D. subst f.
    cbn [float_of python_floats]. rewrite parse_text; [|exact S|exact I0|exact D|exact X].
    replace (match s with [] => 0 | _ => 2 ^ 63 end + of_decimal (digits_value (i ++ d)) (exp_value e - zlen d)) with (signed m (of_decimal (digits_value (i ++ d)) (exp_value e - zlen d))) by (subst s; unfold signed; destruct m; reflexivity).
    apply j_float with (d := d) (x := exp_value e); [exact S'|apply whole_iff; exact I0|apply fraction_iff; auto|apply power_iff; auto|congruence|].
    apply nearest_decimal_iff; [apply digits_nonneg, digits_app; split; [apply natural_digits; exact I0|exact D]|]. rewrite decimal_value. reflexivity.
Qed.

(** ** Whitespace *)
Lemma is_ws_iff c : is_ws c = true <-> In c [32; 9; 10; 13].
Proof. unfold is_ws. rewrite !orb_true_iff, !Z.eqb_eq. cbn [In]. intuition lia. Qed.
Lemma skip_blank w t : blank w -> skip_ws (w ++ t) = skip_ws t.
Proof. induction 1 as [|c w C _ IH]; [reflexivity|]. cbn [app skip_ws]. apply is_ws_iff in C. rewrite C. exact IH. Qed.
Lemma skip_split t : exists w, blank w /\ t = w ++ skip_ws t.
Proof.
  induction t as [|c t (w & B & E)]; [exists []; split; [constructor|reflexivity]|]. cbn [skip_ws]. destruct (is_ws c) eqn:C.
  - exists (c :: w). split; [constructor; [apply is_ws_iff; exact C|exact B]|]. cbn [app]. f_equal. exact E.
  - exists []. split; [constructor|reflexivity].
Qed.
Lemma blank_app a b : blank a -> blank b -> blank (a ++ b).
Proof. intros A B. apply Forall_app. auto. Qed.
Lemma skip_none c t : is_ws c = false -> skip_ws (c :: t) = c :: t.
Proof. intros H. cbn [skip_ws]. rewrite H. reflexivity. Qed.
Lemma skip_starts t r : starts t -> skip_ws (t ++ r) = t ++ r.
Proof. intros (c & q & -> & W & _). cbn [app]. apply skip_none. exact W. Qed.

(** What may come after a value. *)
Definition follow (r : text) : Prop := match r with [] => True | c :: _ => is_ws c = true \/ c = 44 \/ c = 93 \/ c = 125 end.
Lemma follow_ends r : follow r -> ends r.
Proof.
  destruct r as [|c r]; [auto|]. cbn [follow ends]. intros [H|H].
  - apply is_ws_iff in H. cbn [In] in H. unfold is_digit. rewrite andb_false_iff. lia.
  - unfold is_digit. rewrite andb_false_iff. lia.
Qed.
Lemma follow_blank w r : blank w -> follow r -> follow (w ++ r).
Proof. intros [|c w' C _] F; [exact F|]. cbn [app follow]. left. apply is_ws_iff. exact C. Qed.

Definition reads (v : val) (t : text) : Prop :=
  starts t /\ forall f r, follow r -> (length t < f)%nat -> js_dec python_floats f (t ++ r) = Ok (v, r).
Lemma word_reads n r : number_text n -> ends r ->
  js_word python_floats ((n_sign n ++ n_int n ++ n_rest n) ++ r) = (let! v := number_value python_floats n in Ok (v, r)).
Proof.
  intros N R. pose proof (number_reads n r N R) as J. unfold js_word. rewrite J.
  destruct N as (S & I0 & _). destruct (natural_head _ I0) as (c & t & E & C). rewrite E.
  assert (Q : forall d w x, 48 <= d <= 57 -> ~ 48 <= w <= 57 -> strip (w :: x) (((d :: t) ++ n_rest n) ++ r) = None).
  { intros d w x D W. cbn [app strip]. destruct (Z.eqb_spec w d); [lia|reflexivity]. }
  change (codes "null") with [110; 117; 108; 108]. change (codes "true") with [116; 114; 117; 101].
  change (codes "false") with [102; 97; 108; 115; 101]. change (codes "NaN") with [78; 97; 78].
  change (codes "Infinity") with [73; 110; 102; 105; 110; 105; 116; 121].
  change (codes "-Infinity") with [45; 73; 110; 102; 105; 110; 105; 116; 121].
  destruct S as [-> | ->].
  - cbn [app] in *. rewrite !Q by lia. reflexivity.
  - cbn [app strip]. change (110 =? 45) with false. change (116 =? 45) with false. change (102 =? 45) with false. change (78 =? 45) with false.
    change (73 =? 45) with false. change (45 =? 45) with true. cbv iota. destruct (Z.eqb_spec 73 c); [lia|]. reflexivity.
Qed.
Lemma numeral_reads v t : numeral v t -> reads v t.
Proof.
  intros (n & N & -> & V). split; [apply number_starts; exact N|]. intros f r F L. destruct f as [|f]; [lia|]. apply follow_ends in F.
  rewrite js_dec_word; [rewrite word_reads by assumption; rewrite V; reflexivity|..];
    destruct N as (S & I0 & _); destruct (natural_head _ I0) as (c & t & E & C); rewrite E; destruct S as [-> | ->]; cbn [app].
  - intros ? ? [= <- _]. lia.
  - intros ? ? [= <- _]. lia.
  - discriminate.
  - discriminate.
Qed.
Ltac word_read := match goal with |- reads _ (word ?s) => let w := eval vm_compute in (word s) in change (word s) with w end;
  split; [eexists _, _; split; [reflexivity|]; split; [reflexivity|lia]|intros [|f] r F L; [inversion L|reflexivity]].

Lemma string_element x s t : body x t -> str_of x s -> reads (VStr s) (34 :: t ++ [34]).
Proof.
  intros B S. apply str_of_iff in S as [_ S]. split; [eexists _, _; split; [reflexivity|]; split; [reflexivity|lia]|]. intros [|f] r F L; [inversion L|].
  cbn [app js_dec]. change (34 =? 34) with true. cbv iota. rewrite <- app_assoc. cbn [app]. rewrite (string_reads x t B r). cbn [bind]. rewrite S. reflexivity.
Qed.
Definition reads_items (l : list val) (t : text) : Prop :=
  (forall z, exists c u, skip_ws (t ++ z) = c :: u /\ c <> 93) /\
  forall f g r, (length t < f)%nat -> (length t < g)%nat -> js_elems (js_dec python_floats f) g (skip_ws (t ++ 93 :: r)) = Ok (l, r).
Definition reads_pair (k x : val) (t : text) : Prop :=
  (forall z, exists c u, skip_ws (t ++ z) = c :: u /\ c <> 125) /\ python_value k /\
  forall f g d c r, (length t < f)%nat -> c = 44 \/ c = 125 ->
    js_members (js_dec python_floats f) (S g) d (skip_ws (t ++ c :: r)) =
    if c =? 125 then Ok (vset k x d, r) else js_members (js_dec python_floats f) g (vset k x d) (skip_ws r).
Definition reads_members (ps : list (val * val)) (t : text) : Prop :=
  (forall z, exists c u, skip_ws (t ++ z) = c :: u /\ c <> 125) /\ keys_ok ps /\
  forall f g d r, (length t < f)%nat -> (length t < g)%nat ->
    js_members (js_dec python_floats f) g d (skip_ws (t ++ 125 :: r)) = Ok (gather ps d, r).

Lemma all_read lenient :
  (forall v t, element lenient v t -> reads v t) /\ (forall l t, items lenient l t -> reads_items l t) /\
  (forall ps t, members lenient ps t -> reads_members ps t) /\ (forall k x t, pair lenient k x t -> reads_pair k x t).
Proof.
  apply element_all.
  - word_read.
  - word_read.
  - word_read.
  - intros _. word_read.
  - intros _. word_read.
  - intros _. word_read.
  - intros. apply numeral_reads, integer_numeral; assumption.
  - intros. eapply numeral_reads, float_numeral; eassumption.
  - intros. eapply string_element; eassumption.
  - intros w B. split; [eexists _, _; split; [reflexivity|]; split; [reflexivity|lia]|]. intros [|f] r F L; [inversion L|]. cbn [app js_dec].
    change (91 =? 34) with false. change (91 =? 91) with true. cbv iota. cbn [length] in L. destruct f as [|f]; [lia|]. cbn [js_nest].
    rewrite <- app_assoc, skip_blank by exact B. reflexivity.
  - intros l t _ [N R]. split; [eexists _, _; split; [reflexivity|]; split; [reflexivity|lia]|]. intros [|f] r F L; [inversion L|]. cbn [app js_dec].
    change (91 =? 34) with false. change (91 =? 91) with true. cbv iota. cbn [length] in L. rewrite app_length in L. cbn [length] in L. destruct f as [|f]; [lia|]. cbn [js_nest].
    rewrite <- app_assoc. cbn [app]. destruct (N (93 :: r)) as (c & u & E & C).
    specialize (R (S f) (S (length (t ++ 93 :: r))) r ltac:(lia) ltac:(rewrite app_length; lia)). rewrite E in R |- *.
    destruct (Z.eqb_spec c 93); [contradiction|]. rewrite R. reflexivity.
  - intros w B. split; [eexists _, _; split; [reflexivity|]; split; [reflexivity|lia]|]. intros [|f] r F L; [inversion L|]. cbn [app js_dec].
    change (123 =? 34) with false. change (123 =? 91) with false. change (123 =? 123) with true. cbv iota. cbn [length] in L. destruct f as [|f]; [lia|]. cbn [js_nest].
    rewrite <- app_assoc, skip_blank by exact B. reflexivity.
  - intros ps d t _ (N & K & R) Co. split; [eexists _, _; split; [reflexivity|]; split; [reflexivity|lia]|]. intros [|f] r F L; [inversion L|]. cbn [app js_dec].
    change (123 =? 34) with false. change (123 =? 91) with false. change (123 =? 123) with true. cbv iota. cbn [length] in L. rewrite app_length in L. cbn [length] in L. destruct f as [|f]; [lia|]. cbn [js_nest].
    rewrite <- app_assoc. cbn [app]. destruct (N (125 :: r)) as (c & u & E & C).
    specialize (R (S f) (S (length (t ++ 125 :: r))) [] r ltac:(lia) ltac:(rewrite app_length; lia)). rewrite E in R |- *.
    destruct (Z.eqb_spec c 125); [contradiction|]. rewrite R. cbn [bind]. apply collect_iff in Co; [|exact K]. rewrite Co. reflexivity.
  - intros v w t w' B I [S R] B'. split.
    + intros z. rewrite <- !app_assoc, skip_blank by exact B. rewrite skip_starts by exact S. destruct S as (c & q & -> & _ & C & _). eexists _, _. split; [reflexivity|exact C].
    + intros f g r L L'. rewrite !app_length in L, L'. rewrite <- !app_assoc, skip_blank by exact B. rewrite skip_starts by exact S. destruct g as [|g]; [lia|]. cbn [js_elems].
      rewrite R; [|apply follow_blank; [exact B'|cbn; auto]|lia]. cbn [bind]. rewrite skip_blank by exact B'. reflexivity.
  - intros v w t w' l u B I [S R] B' _ [_ Rl]. split.
    + intros z. rewrite <- !app_assoc, skip_blank by exact B. rewrite skip_starts by exact S. destruct S as (c & q & -> & _ & C & _). eexists _, _. split; [reflexivity|exact C].
    + intros f g r L L'. rewrite !app_length in L, L'. cbn [length] in L, L'. rewrite <- !app_assoc, skip_blank by exact B. rewrite skip_starts by exact S. destruct g as [|g]; [lia|]. cbn [js_elems].
      rewrite R; [|apply follow_blank; [exact B'|cbn; auto]|lia]. cbn [bind]. rewrite skip_blank by exact B'. cbn [app]. rewrite skip_none by reflexivity.
      change (44 =? 93) with false. change (44 =? 44) with true. cbv iota. rewrite Rl by lia. reflexivity.
  - intros k x w _ (N & K & R). split; [exact N|]. split; [constructor; [exact K|constructor]|]. intros f g d r L L'. destruct g as [|g]; [lia|].
    rewrite R by (auto || lia). reflexivity.
  - intros k x w ps u _ (N & K & R) _ (_ & Ks & Rl). split; [intros z; rewrite <- app_assoc; apply N|]. split; [constructor; assumption|]. intros f g d r L L'.
    rewrite app_length in L, L'. cbn [length] in L, L'. destruct g as [|g]; [lia|]. rewrite <- app_assoc. cbn [app]. rewrite R by (auto || lia). change (44 =? 125) with false. cbv iota.
    rewrite Rl by lia. reflexivity.
  - intros x s k v t w1 w2 w3 w4 B1 Bo St B2 B3 _ [S R] B4. split; [|split].
    + intros z. rewrite <- app_assoc, skip_blank by exact B1. cbn [app]. rewrite skip_none by reflexivity. eexists _, _. split; [reflexivity|discriminate].
    + apply str_of_iff in St as [C <-]. apply (everywhere_here _ _ (str_val_python x C)).
    + intros f g d c r L C. apply str_of_iff in St as [_ St]. repeat (rewrite !app_length in L; cbn [length] in L).
      rewrite <- app_assoc, skip_blank by exact B1. cbn [app]. rewrite skip_none by reflexivity. cbn [js_members]. change (34 =? 34) with true. cbv iota.
      replace ((k ++ 34 :: w2 ++ 58 :: w3 ++ t ++ w4) ++ c :: r) with (k ++ 34 :: w2 ++ 58 :: w3 ++ t ++ w4 ++ c :: r) by (repeat (rewrite <- !app_assoc; cbn [app]); reflexivity).
      rewrite (string_reads x k Bo). cbn [bind]. rewrite skip_blank by exact B2. rewrite skip_none by reflexivity. change (58 =? 58) with true. cbv iota.
      rewrite skip_blank by exact B3. rewrite skip_starts by exact S. rewrite R; [|apply follow_blank; [exact B4|cbn; lia]|lia]. cbn [bind]. cbv zeta. rewrite St.
      rewrite skip_blank by exact B4. destruct C as [-> | ->]; reflexivity.
Qed.

(** ** What is read is a value of the grammar *)
Definition cuts (dec : text -> res (val * text)) : Prop :=
  forall t v r, forallb is_code t = true -> dec t = Ok (v, r) -> exists u, t = u ++ r /\ element true v u.
Lemma items_blank le w l u : blank w -> items le l u -> items le l (w ++ u).
Proof.
  intros B [v w0 t w' B0 E B'|v w0 t w' l' u' B0 E B' I]; rewrite app_assoc; constructor; auto using blank_app.
Qed.
Lemma pair_blank le w k x u : blank w -> pair le k x u -> pair le k x (w ++ u).
Proof. intros B [s st k' v t w1 w2 w3 w4 B1 Bo St B2 B3 E B4]. rewrite app_assoc. econstructor; eauto using blank_app. Qed.
Lemma members_blank le w ps u : blank w -> members le ps u -> members le ps (w ++ u).
Proof.
  intros B [k x w0 P|k x w0 ps' u' P M]; [constructor; apply pair_blank; assumption|]. rewrite app_assoc. constructor; [apply pair_blank; assumption|exact M].
Qed.
Lemma code_app a b : forallb is_code (a ++ b) = true -> forallb is_code a = true /\ forallb is_code b = true.
Proof. rewrite forallb_app, andb_true_iff. auto. Qed.
Lemma code_tail c r : forallb is_code (c :: r) = true -> forallb is_code r = true.
Proof. cbn [forallb]. rewrite andb_true_iff. tauto. Qed.
Lemma split_skip r c q : skip_ws r = c :: q -> exists w, blank w /\ r = w ++ c :: q.
Proof. intros E. destruct (skip_split r) as (w & B & D). rewrite E in D. eauto. Qed.

Lemma items_cut dec : cuts dec -> forall k t l r, forallb is_code t = true -> js_elems dec k t = Ok (l, r) -> exists u, t = u ++ 93 :: r /\ items true l u.
Proof.
  intros D. induction k as [|k IH]; intros t l r C; cbn [js_elems]; [discriminate|].
  destruct (dec t) as [[x r0]|e] eqn:E; cbn [bind]; [|discriminate]. apply D in E as (u & -> & X); [|exact C]. apply code_app in C as [_ C].
  destruct (skip_ws r0) as [|c r1] eqn:W; [discriminate|]. apply split_skip in W as (w & B & ->). apply code_app in C as [_ C]. apply code_tail in C.
  destruct (Z.eqb_spec c 93) as [->|_].
  { intros [= <- <-]. exists ([] ++ u ++ w). split; [cbn [app]; rewrite <- app_assoc; reflexivity|]. constructor; [constructor|exact X|exact B]. }
  destruct (Z.eqb_spec c 44) as [->|_]; [|discriminate]. destruct (js_elems dec k (skip_ws r1)) as [[l' r2]|e] eqn:E; cbn [bind]; [|discriminate].
  intros [= <- <-]. destruct (skip_split r1) as (w' & B' & E1). apply IH in E as (u' & E2 & I); [|apply skip_ws_code; exact C].
  exists ([] ++ u ++ w ++ 44 :: w' ++ u'). split; [|constructor; [constructor|exact X|exact B|apply items_blank; assumption]].
  rewrite E1, E2. repeat (cbn [app]; rewrite <- !app_assoc). reflexivity.
Qed.
Lemma members_cut dec : cuts dec -> forall k t d d' r, forallb is_code t = true -> js_members dec k d t = Ok (d', r) ->
  exists ps u, t = u ++ 125 :: r /\ members true ps u /\ keys_ok ps /\ d' = gather ps d.
Proof.
  intros D. induction k as [|k IH]; intros t d d' r C; cbn [js_members]; [discriminate|].
  destruct t as [|q t]; [discriminate|]. destruct (Z.eqb_spec q 34) as [->|_]; [|discriminate]. apply code_tail in C.
  pose proof (js_string_span (length t) t (le_n _)) as Sp. destruct (js_string t) as [[s r1]|e] eqn:E; cbn [bind]; [|discriminate]. destruct Sp as [_ Sp]. destruct (Sp C) as [Cs _].
  apply (string_cut (length t)) in E as (b & -> & Bo); [|apply le_n]. apply code_app in C as [_ C]. apply code_tail in C.
  destruct (skip_ws r1) as [|c r2] eqn:W; [discriminate|]. apply split_skip in W as (w2 & B2 & ->). apply code_app in C as [_ C]. apply code_tail in C.
  destruct (Z.eqb_spec c 58) as [->|_]; [|discriminate]. destruct (skip_split r2) as (w3 & B3 & E3).
  destruct (dec (skip_ws r2)) as [[x r3]|e] eqn:E; cbn [bind]; [|discriminate]. apply D in E as (u & E4 & X); [|apply skip_ws_code; exact C]. rewrite E4 in E3. rewrite E3 in C |- *. clear E3 E4.
  apply code_app in C as [_ C]. apply code_app in C as [_ C].
  destruct (skip_ws r3) as [|e r4] eqn:W; [discriminate|]. apply split_skip in W as (w4 & B4 & ->). apply code_app in C as [_ C]. apply code_tail in C. cbv zeta.
  assert (St : exists z, str_val s = VStr z /\ str_of s z) by (eexists; split; [reflexivity|]; apply str_of_iff; auto). destruct St as (z & Sz & St).
  assert (P : pair true (str_val s) x ([] ++ 34 :: b ++ 34 :: w2 ++ 58 :: w3 ++ u ++ w4)) by (rewrite Sz; econstructor; try eassumption; constructor).
  assert (K : python_value (str_val s)) by apply (everywhere_here _ _ (str_val_python s Cs)).
  destruct (Z.eqb_spec e 125) as [->|_].
  { intros [= <- <-]. exists [(str_val s, x)], ([] ++ 34 :: b ++ 34 :: w2 ++ 58 :: w3 ++ u ++ w4). split; [repeat (cbn [app]; rewrite <- !app_assoc); reflexivity|].
    split; [constructor; exact P|]. split; [constructor; [exact K|constructor]|reflexivity]. }
  destruct (Z.eqb_spec e 44) as [->|_]; [|discriminate]. intros E. destruct (skip_split r4) as (w5 & B5 & E5). apply IH in E as (ps & u' & E6 & M & Ks & ->); [|apply skip_ws_code; exact C].
  exists ((str_val s, x) :: ps), (([] ++ 34 :: b ++ 34 :: w2 ++ 58 :: w3 ++ u ++ w4) ++ 44 :: w5 ++ u'). split.
  - rewrite E5, E6. repeat (cbn [app]; rewrite <- !app_assoc). reflexivity.
  - split; [constructor; [exact P|apply members_blank; assumption]|]. split; [constructor; assumption|reflexivity].
Qed.
Lemma word_cut t v r : js_word python_floats t = Ok (v, r) -> exists u, t = u ++ r /\ element true v u.
Proof.
  unfold js_word.
  assert (W : forall w x q (r' : text), strip (codes w) t = Some q -> element true x (word w) -> Ok (x, q) = Ok (v, r) -> exists u, t = u ++ r /\ element true v u).
  { intros w x q _ S E [= <- <-]. apply strip_suffix in S. exists (word w). split; [exact S|exact E]. }
  destruct (strip (codes "null") t) eqn:E1; [intros E; eapply (W _ _ _ r E1); [apply j_null|exact E]|].
  destruct (strip (codes "true") t) eqn:E2; [intros E; eapply (W _ _ _ r E2); [apply j_true|exact E]|].
  destruct (strip (codes "false") t) eqn:E3; [intros E; eapply (W _ _ _ r E3); [apply j_false|exact E]|].
  destruct (strip (codes "NaN") t) eqn:E4; [intros E; eapply (W _ _ _ r E4); [apply j_nan; reflexivity|exact E]|].
  destruct (strip (codes "Infinity") t) eqn:E5; [intros E; eapply (W _ _ _ r E5); [apply j_infinity; reflexivity|exact E]|].
  destruct (strip (codes "-Infinity") t) eqn:E6; [intros E; eapply (W _ _ _ r E6); [apply j_minus_infinity; reflexivity|exact E]|].
  destruct (js_number t) as [[n q]|] eqn:J; [|discriminate]. destruct (number_value python_floats n) as [x|] eqn:V; cbn [bind]; [|discriminate].
  intros [= <- <-]. apply js_number_suffix in J as J'. destruct J' as [-> _]. apply number_cut in J. exists (n_sign n ++ n_int n ++ n_rest n). split; [reflexivity|].
  apply numeral_element. exists n. auto.
Qed.
Lemma all_cut f : cuts (js_dec python_floats f).
Proof.
  induction f as [|f IH]; intros t v r C; [discriminate|]. destruct t as [|c t]; [discriminate|]. cbn [js_dec]. assert (C' := code_tail _ _ C).
  destruct (Z.eqb_spec c 34) as [->|_].
  { pose proof (js_string_span (length t) t (le_n _)) as Sp. destruct (js_string t) as [[s r1]|e] eqn:E; cbn [bind]; [|discriminate]. destruct Sp as [_ Sp]. destruct (Sp C') as [Cs _].
    intros [= <- <-]. apply (string_cut (length t)) in E as (b & -> & Bo); [|apply le_n]. exists (34 :: b ++ [34]). split; [cbn [app]; rewrite <- app_assoc; reflexivity|].
    unfold str_val. econstructor; [exact Bo|]. apply str_of_iff. auto. }
  destruct (Z.eqb_spec c 91) as [->|_].
  { unfold js_nest. destruct f as [|f']; [discriminate|]. destruct (skip_split t) as (w & B & E). destruct (skip_ws t) as [|e r1] eqn:W; [discriminate|].
    destruct (Z.eqb_spec e 93) as [->|_].
    - intros [= <- <-]. exists (91 :: w ++ [93]). split; [rewrite E; cbn [app]; rewrite <- app_assoc; reflexivity|]. constructor. exact B.
    - destruct (js_elems _ _ (e :: r1)) as [[l r2]|] eqn:J; cbn [bind]; [|discriminate]. intros [= <- <-].
      apply (items_cut _ IH) in J as (u & E1 & I); [|rewrite <- W; apply skip_ws_code; exact C']. exists (91 :: (w ++ u) ++ [93]).
      split; [rewrite E, E1; cbn [app]; rewrite <- !app_assoc; reflexivity|]. constructor. apply items_blank; assumption. }
  destruct (Z.eqb_spec c 123) as [->|_]; [|apply word_cut].
  unfold js_nest. destruct f as [|f']; [discriminate|]. destruct (skip_split t) as (w & B & E). destruct (skip_ws t) as [|e r1] eqn:W; [discriminate|].
  destruct (Z.eqb_spec e 125) as [->|_].
  - intros [= <- <-]. exists (123 :: w ++ [125]). split; [rewrite E; cbn [app]; rewrite <- app_assoc; reflexivity|]. constructor. exact B.
  - destruct (js_members _ _ _ (e :: r1)) as [[d r2]|] eqn:J; cbn [bind]; [|discriminate]. intros [= <- <-].
    apply (members_cut _ IH) in J as (ps & u & E1 & M & K & ->); [|rewrite <- W; apply skip_ws_code; exact C']. exists (123 :: (w ++ u) ++ [125]).
    split; [rewrite E, E1; cbn [app]; rewrite <- !app_assoc; reflexivity|]. econstructor; [apply members_blank; eassumption|]. apply collect_iff; [exact K|reflexivity].
Qed.

Lemma document_reads lenient v t : document lenient v t -> js_decode python_floats (length t) t = Ok v.
Proof.
  intros (w & u & w' & B & E & B' & ->). destruct (proj1 (all_read lenient) _ _ E) as [S R]. unfold js_decode. rewrite skip_blank by exact B. rewrite skip_starts by exact S.
  rewrite R; [|rewrite <- (app_nil_r w'); apply follow_blank; [exact B'|exact Logic.I]|rewrite !app_length; lia]. cbn [bind]. rewrite <- (app_nil_r w'), skip_blank by exact B'. reflexivity.
Qed.
Lemma json_exact b v : loads python_json b = Ok v <-> exists t, chars t (map value b) /\ document true v t.
Proof.
  cbn [loads python_json json]. unfold js_loads. split.
  - destruct (str_points b) as [t|] eqn:P; [|discriminate]. apply encode_str_points in P as [P C]. unfold js_decode.
    destruct (js_dec python_floats (S (length t)) (skip_ws t)) as [[x r]|] eqn:D; cbn [bind]; [|discriminate]. destruct (skip_ws r) as [|? ?] eqn:W; [|discriminate]. intros [= <-].
    exists t. split; [apply chars_iff; split; [exact C|rewrite P; reflexivity]|]. destruct (skip_split t) as (w & B & E). destruct (skip_split r) as (w' & B' & E').
    apply all_cut in D as (u & E2 & X); [|apply skip_ws_code; exact C]. rewrite W, app_nil_r in E'. subst w'. exists w, u, r. rewrite <- E2. auto.
  - intros (t & Ch & D). apply chars_iff in Ch as [C E]. apply map_value_inj in E as ->. rewrite str_points_encode by exact C. eapply document_reads. exact D.
Qed.
Lemma json_reads t b v : chars t (map value b) -> document false v t -> loads python_json b = Ok v.
Proof.
  intros Ch D. cbn [loads python_json json]. unfold js_loads. apply chars_iff in Ch as [C E]. apply map_value_inj in E as ->. rewrite str_points_encode by exact C.
  eapply document_reads. exact D.
Qed.

(** ** What is written is a text of the grammar *)
Definition finite_floats (v : val) : Prop := everywhere (fun x => match x with VFloat f => finite 11 52 f | _ => True end) v.
Section Written.
  Context (le : bool).
  Definition suits (v : val) : Prop := le = true \/ finite_floats v.
  Definition written (v : val) : Prop := exists t, js_enc python_floats v = Ok t /\ ascii_text t /\ element le v t.
  Lemma ascii_code t : ascii_text t -> forallb is_code t = true.
  Proof. intros A. apply forallb_forall. intros c J. unfold ascii_text in A. rewrite Forall_forall in A. specialize (A c J). unfold is_code. apply andb_true_iff. lia. Qed.
  Lemma leaf_strict v t : element true v t -> suits v -> match v with VList _ | VDict _ => False | _ => True end -> element le v t.
  Proof.
    intros E [->|F] L; [exact E|].
    assert (Bad : forall f, f = Infinite + 2 ^ 51 \/ f = Infinite \/ f = signed true Infinite -> ~ finite 11 52 f).
    { intros f H X. apply X. destruct H as [->|[->| ->]]; reflexivity. }
    destruct E; try contradiction L; try (econstructor; eassumption); exfalso; apply everywhere_here in F; (eapply Bad; [|exact F]); auto.
  Qed.
  Lemma leaf_written v : json_value v -> suits v -> match v with VList _ | VDict _ => False | _ => True end -> written v.
  Proof.
    intros W S L. destruct (js_good_all python_floats python_floats_ok v W) as (t & E & _ & A & _ & R). exists t. split; [exact E|]. split; [exact A|].
    specialize (R (Datatypes.S (levels v)) [] Logic.I (Nat.lt_succ_diag_r _)). rewrite app_nil_r in R. apply all_cut in R as (u & Eu & X); [|apply ascii_code; exact A].
    rewrite app_nil_r in Eu. subst u. apply leaf_strict; assumption.
  Qed.
  Lemma no_blank : blank [].
  Proof. constructor. Qed.
  Lemma items_written l : forall x first, written x -> Forall written l ->
    exists u, js_items_enc python_floats first (x :: l) = Ok (sep first ++ u ++ [93]) /\ ascii_text u /\ items le (x :: l) u.
  Proof.
    induction l as [|y l IH]; intros x first (t & E & A & X) W; rewrite js_items_cons, E.
    - exists ([] ++ t ++ []). cbn [app]. split; [cbn [js_items_enc cat_t bind]; rewrite app_nil_r; reflexivity|]. split; [rewrite app_nil_r; exact A|].
      apply (j_item le x [] t []); [apply no_blank|exact X|apply no_blank].
    - inversion W as [|? ? Wy Wl]; subst. destruct (IH y false Wy Wl) as (u & E' & A' & I). rewrite E'. exists ([] ++ t ++ [] ++ 44 :: [32] ++ u). split; [|split].
      + unfold cat_t. cbn [bind sep app]. rewrite <- !app_assoc. reflexivity.
      + cbn [app]. apply Forall_app. split; [exact A|]. constructor; [lia|]. constructor; [lia|exact A'].
      + constructor; [apply no_blank|exact X|apply no_blank|]. apply items_blank; [repeat constructor|exact I].
  Qed.
  Lemma members_written d : forall k x first, str_key k -> written k -> written x -> Forall (fun kv => str_key (fst kv) /\ written (fst kv) /\ written (snd kv)) d ->
    exists u, js_pairs_enc python_floats first ((k, x) :: d) = Ok (sep first ++ u ++ [125]) /\ ascii_text u /\ members le ((k, x) :: d) u.
  Proof.
    induction d as [|[k' y] d IH]; intros k x first K (kt & Ek & Ak & Xk) (t & E & A & X) W; rewrite js_pairs_cons, E; destruct k as [| | | |s| | | |]; try contradiction K;
      cbn [js_key js_enc] in *; rewrite Ek; inversion Xk as [| | | | | | | |z ? b Bo St| | | |]; subst.
    - assert (P : pair le (VStr s) x ([] ++ 34 :: b ++ 34 :: [] ++ 58 :: [32] ++ t ++ [])).
      { econstructor; [apply no_blank|exact Bo|exact St|apply no_blank|repeat constructor|exact X|apply no_blank]. }
      eexists. split; [|split; [|apply j_member; exact P]].
      + unfold cat_t. cbn [bind js_pairs_enc]. repeat (cbn [app]; rewrite <- !app_assoc). reflexivity.
      + cbn [app] in *. inversion Ak as [|? ? _ Ab]; subst. apply Forall_app in Ab as [Ab _]. constructor; [lia|]. apply Forall_app. split; [exact Ab|].
        repeat (constructor; [lia|]). rewrite app_nil_r. exact A.
    - inversion W as [|? ? (Ky & Wk & Wy) Wl]; subst. cbn [fst snd] in *. destruct (IH k' y false Ky Wk Wy Wl) as (u & E' & A' & M). rewrite E'.
      assert (P : pair le (VStr s) x ([] ++ 34 :: b ++ 34 :: [] ++ 58 :: [32] ++ t ++ [])).
      { econstructor; [apply no_blank|exact Bo|exact St|apply no_blank|repeat constructor|exact X|apply no_blank]. }
      eexists. split; [|split; [|apply j_members; [exact P|apply (members_blank le [32]); [repeat constructor|exact M]]]].
      + unfold cat_t. cbn [bind sep]. repeat (cbn [app]; rewrite <- !app_assoc). reflexivity.
      + cbn [app] in *. inversion Ak as [|? ? _ Ab]; subst. apply Forall_app in Ab as [Ab _]. constructor; [lia|]. rewrite app_nil_r. rewrite <- app_assoc. apply Forall_app. split; [exact Ab|].
        cbn [app]. repeat (constructor; [lia|]). apply Forall_app. split; [exact A|]. repeat (constructor; [lia|]). exact A'.
  Qed.
  Lemma str_text_key k : str_key k -> text_key k.
  Proof. destruct k; cbn; auto. Qed.
  Lemma all_written v : json_value v -> suits v -> written v.
  Proof.
    unfold json_value, suits, finite_floats. induction v as [|b|z|f|s|b|t b|l IH|d IH] using val_nested; intros W S; try (apply leaf_written; [exact W|exact S|exact Logic.I]);
      pose proof (everywhere_here _ _ W) as [Wp Wh].
    - apply everywhere_list in W as [_ W].
      assert (G : Forall written l).
      { rewrite Forall_forall in *. intros x J. apply IH; [exact J|auto|]. destruct S as [S|S]; [auto|right]. apply everywhere_list in S as [_ S]. rewrite Forall_forall in S. auto. }
      unfold written. cbn [js_enc]. fold (js_items_enc python_floats true l). destruct G as [|x l Gx Gl].
      + exists [91; 93]. split; [reflexivity|]. split; [repeat (constructor; [lia|]); constructor|]. apply (j_no_items le []). constructor.
      + destruct (items_written l x true Gx Gl) as (u & -> & A & I). exists (91 :: u ++ [93]). split; [reflexivity|]. split; [|constructor; exact I].
        constructor; [lia|]. apply Forall_app. split; [exact A|]. repeat (constructor; [lia|]). constructor.
    - apply everywhere_dict in W as [_ W]. destruct Wh as [WN WS].
      assert (G : Forall (fun kv => str_key (fst kv) /\ written (fst kv) /\ written (snd kv)) d).
      { rewrite Forall_forall in *. intros kv J. destruct (W kv J) as [W1 W2]. destruct (IH kv J) as [I1 I2]. split; [apply WS, in_map; exact J|].
        destruct S as [S|S]; [auto|]. apply everywhere_dict in S as [_ S]. rewrite Forall_forall in S. destruct (S kv J). auto. }
      unfold written. cbn [js_enc]. fold (js_pairs_enc python_floats true d).
      assert (Co : collect d d).
      { apply collect_iff; [unfold keys_ok; rewrite Forall_forall in *; intros kv J; apply (everywhere_here _ _ (proj1 (W kv J)))|]. apply (CborFormat.distinct_gather d []).
        apply NoDup_distinct; [eapply Forall_impl; [apply str_text_key|exact WS]|exact WN]. }
      destruct G as [|[k x] d (K & Gk & Gx) Gl].
      + exists [123; 125]. split; [reflexivity|]. split; [repeat (constructor; [lia|]); constructor|]. apply (j_no_members le []). constructor.
      + destruct (members_written d k x true K Gk Gx Gl) as (u & -> & A & M). exists (123 :: u ++ [125]). split; [reflexivity|]. split; [|econstructor; [exact M|exact Co]].
        constructor; [lia|]. apply Forall_app. split; [exact A|]. repeat (constructor; [lia|]). constructor.
  Qed.
  Lemma json_writes v b : json_value v -> suits v -> dumps python_json v = Ok b -> exists t, chars t (map value b) /\ document le v t.
  Proof.
    intros W S D. destruct (all_written v W S) as (t & E & A & X). cbn [dumps python_json json] in D. unfold js_dumps in D. rewrite E in D. injection D as <-.
    exists t. split; [|exists [], t, []; split; [apply no_blank|]; split; [exact X|]; split; [apply no_blank|rewrite app_nil_r; reflexivity]].
    apply chars_iff. split; [apply ascii_code; exact A|]. f_equal. pose proof (utf8_ascii t A) as U. apply encode_str_points in U as [U _]. auto.
  Qed.
End Written.
