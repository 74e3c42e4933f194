(** * HeaderFacts: the integers at the head of a list survive a serializer whenever the rest can be read at all. *)
From Coq Require Import String Ascii List ZArith Bool Lia.
From Verif Require Import PyBase Rawsocket BitFacts Encoding EncodingFacts Utf8 CodecBase Serializer MsgPack MsgPackFacts Cbor CborFacts CodecOpen CodecOpenFacts Json JsonFacts Codecs.
Import ListNotations.
Local Open Scope Z_scope.
Local Open Scope list_scope.

Definition small (z : Z) : Prop := 0 <= z <= 2 ^ 53.
(** Serializer [c] keeps the integers at the head of a short list. *)
Definition keeps_head (c : codec) : Prop := forall zs l b v,
  Forall small zs -> zs <> [] -> (length zs + length l <= 10)%nat -> dumps c (VList (map VInt zs ++ l)) = Ok b -> loads c b = Ok v ->
  exists l', v = VList (map VInt zs ++ l').

(** ** MsgPack *)
Lemma cat_ok a b x : cat a b = Ok x -> exists y z, a = Ok y /\ b = Ok z /\ x = y ++ z.
Proof. unfold cat. destruct a; [|discriminate]. destruct b; [|discriminate]. cbn [bind]. intros [= <-]. eauto. Qed.

Lemma mp_head_items n fuel lim zs l : forall b r x y, Forall small zs -> mp_items_enc n (map VInt zs ++ l) = Ok b ->
  mp_items (mp_unpack (S fuel) lim) (length (map VInt zs ++ l)) (b ++ r) = Ok (x, y) -> exists l', x = map VInt zs ++ l'.
Proof.
  induction zs as [|z zs IH]; intros b r x y S E D; [exists x; reflexivity|]. inversion S as [|? ? Sz S']; subst.
  cbn [map app mp_items_enc] in E. fold (mp_items_enc n (map VInt zs ++ l)) in E. apply cat_ok in E. destruct E as (b1 & b2 & E1 & E2 & ->).
  cbn [mp_pack] in E1. destruct (n <? 0); [discriminate|].
  destruct (mp_int_dec z fuel lim (b2 ++ r)) as (b' & E' & _ & R). { unfold small in Sz. split; [apply Z.le_trans with 0; [discriminate|apply Sz]|]. apply Z.le_lt_trans with (2 ^ 53); [apply Sz|reflexivity]. }
  rewrite E' in E1. injection E1 as <-. cbn [map app length mp_items] in D. rewrite <- app_assoc, R in D. cbn [bind] in D.
  destruct (mp_items _ _ (b2 ++ r)) as [[u w]|] eqn:F; [|discriminate]. cbn [bind] in D. injection D as <- <-.
  destruct (IH _ _ _ _ S' E2 F) as (l' & ->). exists l'. reflexivity.
Qed.
Lemma zlen_short (l : list val) : (length l <= 10)%nat -> 0 <= zlen l < 2 ^ 32.
Proof. unfold zlen. intros H. split; [lia|]. apply Z.le_lt_trans with 10; [lia|reflexivity]. Qed.
Lemma mp_keeps_head : keeps_head msgpack.
Proof.
  intros zs l b v S _ L E D. cbn [dumps loads msgpack] in *. unfold mp_dumps in E. cbn [mp_pack] in E. change (511 <? 0) with false in E. cbv iota in E.
  fold (mp_items_enc (511 - 1) (map VInt zs ++ l)) in E. apply cat_ok in E. destruct E as (h & t & Eh & Et & ->).
  assert (L' : (length (map VInt zs ++ l) <= 10)%nat) by (rewrite app_length, map_length; exact L).
  destruct (mp_array_head_dec (zlen (map VInt zs ++ l)) (zlen_short _ L')) as (h' & Eh' & _ & R). rewrite Eh in Eh'. injection Eh' as <-.
  unfold mp_loads in D. rewrite R in D. destruct (mp_nest MP_STACK _) as [[x r]|e] eqn:F; [|destruct e; discriminate].
  unfold MP_STACK in F. set (k := 1023%nat) in F. change 1024%nat with (Datatypes.S k) in F. clearbody k.
  cbn [mp_nest] in F. unfold mp_array in F. destruct (_ <? _); [discriminate|]. unfold zlen at 2 in F. rewrite Nat2Z.id in F.
  rewrite <- (app_nil_r t) in F.
  destruct (mp_items _ _ (t ++ [])) as [[u w]|] eqn:G; [|discriminate]. cbn [bind] in F. injection F as <- <-.
  destruct (mp_head_items _ _ _ _ _ _ _ _ _ S Et G) as (l' & ->). exists l'. cbn [bind] in D. destruct w; [injection D as <-; reflexivity|discriminate].
Qed.

(** ** CBOR *)
Lemma cb_head_items fuel zs l : forall b r x y, Forall small zs -> cb_items_enc (map VInt zs ++ l) = Ok b ->
  mp_items (cb_dec (S (S fuel))) (length (map VInt zs ++ l)) (b ++ r) = Ok (x, y) -> exists l', x = map VInt zs ++ l'.
Proof.
  induction zs as [|z zs IH]; intros b r x y S E D; [exists x; reflexivity|]. inversion S as [|? ? Sz S']; subst.
  cbn [map app cb_items_enc] in E. fold (cb_items_enc (map VInt zs ++ l)) in E. apply cat_ok in E. destruct E as (b1 & b2 & E1 & E2 & ->).
  cbn [cb_enc] in E1. injection E1 as <-.
  cbn [map app length mp_items] in D. rewrite <- app_assoc, cb_int_dec in D.
  2:{ unfold small in Sz. rewrite Z.abs_eq by apply Sz. apply Z.le_lt_trans with (53 + 1); [|reflexivity]. apply Z.add_le_mono_r.
      change 53 with (Z.log2 (2 ^ 53)). apply Z.log2_le_mono, Sz. }
  cbn [bind] in D. destruct (mp_items _ _ (b2 ++ r)) as [[u w]|] eqn:F; [|discriminate]. cbn [bind] in D. injection D as <- <-.
  destruct (IH _ _ _ _ S' E2 F) as (l' & ->). exists l'. reflexivity.
Qed.
Lemma cb_keeps_head : keeps_head cbor.
Proof.
  intros zs l b v S N L E D. cbn [dumps loads cbor] in *. cbn [cb_enc] in E. fold (cb_items_enc (map VInt zs ++ l)) in E.
  apply cat_ok in E. destruct E as (h & t & Eh & Et & ->). injection Eh as <-.
  assert (L' : (length (map VInt zs ++ l) <= 10)%nat) by (rewrite app_length, map_length; exact L).
  destruct (cb_head_dec 4 (zlen (map VInt zs ++ l))) as (a & h & Eh & M & R); [lia|pose proof (zlen_short _ L'); split; [lia|apply Z.lt_trans with (2 ^ 32); [lia|reflexivity]]|].
  unfold cb_loads, cb_loads_within in D. rewrite Eh in D. cbn [app] in D. rewrite cb_dec_item, M in D. unfold cb_item in D. cbn [Z.eqb Pos.eqb] in D. rewrite R in D. cbn [bind] in D.
  unfold zlen in D. rewrite Nat2Z.id in D.
  assert (T : exists f, length (a :: h ++ t) = Datatypes.S (Datatypes.S f)).
  { destruct zs as [|z zs]; [congruence|]. cbn [map app cb_items_enc] in Et. fold (cb_items_enc (map VInt zs ++ l)) in Et. apply cat_ok in Et. destruct Et as (b1 & b2 & E1 & E2 & ->).
    cbn [cb_enc] in E1. injection E1 as <-. cbn [length]. rewrite !app_length.
    assert (P : (0 < length (cb_int z))%nat). { unfold cb_int. unfold cb_head. repeat match goal with |- context [if ?c then _ else _] => destruct c end; cbn [length app]; try lia; rewrite ?app_length; cbn; lia. }
    exists (length h + (length (cb_int z) + length b2) - 1)%nat. lia. }
  destruct T as [f T]. rewrite T in D. rewrite <- (app_nil_r t) in D.
  destruct (mp_items _ _ (t ++ [])) as [[u w]|] eqn:F; [|discriminate]. cbn [bind] in D. injection D as <-.
  destruct (cb_head_items _ _ _ _ _ _ _ S Et F) as (l' & ->). exists l'. reflexivity.
Qed.

(** ** The same with what is left out *)
Section Open.
Context (U : unknown).
Definition mpo_items_enc (n : Z) := fix items (l : list val) : res (list ascii) := match l with [] => Ok [] | x :: l' => cat (mpo_pack U n x) (items l') end.
Definition cbo_items_enc := fix items (l : list val) : res (list ascii) := match l with [] => Ok [] | x :: l' => cat (cbo_enc U x) (items l') end.
Lemma mpo_head_items n fuel lim zs l : forall b r x y, Forall small zs -> mpo_items_enc n (map VInt zs ++ l) = Ok b ->
  mp_items (mp_unpack (S fuel) lim) (length (map VInt zs ++ l)) (b ++ r) = Ok (x, y) -> exists l', x = map VInt zs ++ l'.
Proof.
  induction zs as [|z zs IH]; intros b r x y S E D; [exists x; reflexivity|]. inversion S as [|? ? Sz S']; subst.
  cbn [map app mpo_items_enc] in E. fold (mpo_items_enc n (map VInt zs ++ l)) in E. apply cat_ok in E. destruct E as (b1 & b2 & E1 & E2 & ->).
  cbn [mpo_pack] in E1. destruct (n <? 0); [discriminate|].
  destruct (mp_int_dec z fuel lim (b2 ++ r)) as (b' & E' & _ & R). { unfold small in Sz. split; [apply Z.le_trans with 0; [discriminate|apply Sz]|]. apply Z.le_lt_trans with (2 ^ 53); [apply Sz|reflexivity]. }
  rewrite E' in E1. injection E1 as <-. cbn [map app length mp_items] in D. rewrite <- app_assoc, R in D. cbn [bind] in D.
  destruct (mp_items _ _ (b2 ++ r)) as [[u w]|] eqn:F; [|discriminate]. cbn [bind] in D. injection D as <- <-.
  destruct (IH _ _ _ _ S' E2 F) as (l' & ->). exists l'. reflexivity.
Qed.
Lemma mpo_keeps_head : keeps_head (msgpack_open U).
Proof.
  intros zs l b v S _ L E D. cbn [dumps loads msgpack_open] in *. cbn [mpo_pack] in E. change (511 <? 0) with false in E. cbv iota in E.
  fold (mpo_items_enc (511 - 1) (map VInt zs ++ l)) in E. apply cat_ok in E. destruct E as (h & t & Eh & Et & ->).
  assert (L' : (length (map VInt zs ++ l) <= 10)%nat) by (rewrite app_length, map_length; exact L).
  destruct (mp_array_head_dec (zlen (map VInt zs ++ l)) (zlen_short _ L')) as (h' & Eh' & _ & R). rewrite Eh in Eh'. injection Eh' as <-.
  unfold mp_loads in D. rewrite R in D. destruct (mp_nest MP_STACK _) as [[x r]|e] eqn:F; [|destruct e; discriminate].
  unfold MP_STACK in F. set (k := 1023%nat) in F. change 1024%nat with (Datatypes.S k) in F. clearbody k.
  cbn [mp_nest] in F. unfold mp_array in F. destruct (_ <? _); [discriminate|]. unfold zlen at 2 in F. rewrite Nat2Z.id in F.
  rewrite <- (app_nil_r t) in F.
  destruct (mp_items _ _ (t ++ [])) as [[u w]|] eqn:G; [|discriminate]. cbn [bind] in F. injection F as <- <-.
  destruct (mpo_head_items _ _ _ _ _ _ _ _ _ S Et G) as (l' & ->). exists l'. cbn [bind] in D. destruct w; [injection D as <-; reflexivity|discriminate].
Qed.
Lemma cbo_head_items fuel zs l : forall b r x y, Forall small zs -> cbo_items_enc (map VInt zs ++ l) = Ok b ->
  mp_items (cbo_dec U (S (S fuel))) (length (map VInt zs ++ l)) (b ++ r) = Ok (x, y) -> exists l', x = map VInt zs ++ l'.
Proof.
  induction zs as [|z zs IH]; intros b r x y S E D; [exists x; reflexivity|]. inversion S as [|? ? Sz S']; subst.
  cbn [map app cbo_items_enc] in E. fold (cbo_items_enc (map VInt zs ++ l)) in E. apply cat_ok in E. destruct E as (b1 & b2 & E1 & E2 & ->).
  cbn [cbo_enc] in E1. injection E1 as <-.
  assert (W : Z.log2 (Z.abs z) + 1 < 2 ^ 64).
  { unfold small in Sz. rewrite Z.abs_eq by apply Sz. apply Z.le_lt_trans with (53 + 1); [|reflexivity]. apply Z.add_le_mono_r.
      change 53 with (Z.log2 (2 ^ 53)). apply Z.log2_le_mono, Sz. }
  cbn [map app length mp_items] in D. rewrite <- app_assoc, (agrees_ok _ _ _ (cbo_dec_agrees U _ _) (cb_int_dec z fuel (b2 ++ r) W)) in D.
  cbn [bind] in D. destruct (mp_items _ _ (b2 ++ r)) as [[u w]|] eqn:F; [|discriminate]. cbn [bind] in D. injection D as <- <-.
  destruct (IH _ _ _ _ S' E2 F) as (l' & ->). exists l'. reflexivity.
Qed.
Lemma cbo_keeps_head : keeps_head (cbor_open U).
Proof.
  intros zs l b v S N L E D. cbn [dumps loads cbor_open] in *. cbn [cbo_enc] in E. fold (cbo_items_enc (map VInt zs ++ l)) in E.
  apply cat_ok in E. destruct E as (h & t & Eh & Et & ->). injection Eh as <-.
  assert (L' : (length (map VInt zs ++ l) <= 10)%nat) by (rewrite app_length, map_length; exact L).
  destruct (cb_head_dec 4 (zlen (map VInt zs ++ l))) as (a & h & Eh & M & R); [lia|pose proof (zlen_short _ L'); split; [lia|apply Z.lt_trans with (2 ^ 32); [lia|reflexivity]]|].
  unfold cbo_loads in D. rewrite Eh in D. cbn [app] in D. rewrite cbo_dec_item, M in D. unfold cbo_item in D. cbn [Z.eqb Pos.eqb] in D. rewrite R in D. cbn [bind] in D.
  unfold zlen in D. rewrite Nat2Z.id in D.
  assert (T : exists f, length (a :: h ++ t) = Datatypes.S (Datatypes.S f)).
  { destruct zs as [|z zs]; [congruence|]. cbn [map app cbo_items_enc] in Et. fold (cbo_items_enc (map VInt zs ++ l)) in Et. apply cat_ok in Et. destruct Et as (b1 & b2 & E1 & E2 & ->).
    cbn [cbo_enc] in E1. injection E1 as <-. cbn [length]. rewrite !app_length.
    assert (P : (0 < length (cb_int z))%nat). { unfold cb_int. unfold cb_head. repeat match goal with |- context [if ?c then _ else _] => destruct c end; cbn [length app]; try lia; rewrite ?app_length; cbn; lia. }
    exists (length h + (length (cb_int z) + length b2) - 1)%nat. lia. }
  destruct T as [f T]. rewrite T in D. rewrite <- (app_nil_r t) in D.
  destruct (mp_items _ _ (t ++ [])) as [[u w]|] eqn:F; [|discriminate]. cbn [bind] in D. injection D as <-.
  destruct (cbo_head_items _ _ _ _ _ _ _ S Et F) as (l' & ->). exists l'. reflexivity.
Qed.
End Open.

(** ** JSON *)
Lemma cat_t_ok a b x : cat_t a b = Ok x -> exists y z, a = Ok y /\ b = Ok z /\ x = y ++ z.
Proof. unfold cat_t. destruct a; [|discriminate]. destruct b; [|discriminate]. cbn [bind]. intros [= <-]. eauto. Qed.
Lemma str_points_prefix p t u : ascii_text p -> str_points (map byte_of (p ++ t)) = Some u -> exists u', u = p ++ u' /\ str_points (map byte_of t) = Some u'.
Proof.
  unfold str_points. intros A. revert u. induction A as [|c p C A IH]; intros u H; [exists u; auto|]. cbn [app map decode_points] in H. rewrite byte_Z_of in H by lia.
  destruct (Z.ltb_spec c 128); [|lia]. destruct (decode_points _ (map byte_of (p ++ t))) as [w|] eqn:E; [|discriminate]. cbn in H. injection H as <-.
  destruct (IH _ eq_refl) as (u' & -> & K). exists u'. auto.
Qed.
Definition body_text (zs : list Z) : text := flat_map (fun z => 44 :: 32 :: codes (str_of_Z z)) zs.

Section Json.
  Context (fl : floats).
  Lemma js_ends l t : js_items_enc fl false l = Ok t -> exists c t', t = c :: t' /\ (c = 93 \/ c = 44).
  Proof.
    destruct l as [|x l]; [intros [= <-]; exists 93, []; auto|]. rewrite js_items_cons. intros H. apply cat_t_ok in H. destruct H as (y & z & [= <-] & _ & ->).
    cbn [sep app]. eexists _, _. auto.
  Qed.
  Lemma js_small z : small z -> js_good fl (VInt z).
  Proof.
    intros H. apply js_int_good. unfold small in H. rewrite Z.abs_eq by apply H. apply Z.le_lt_trans with (2 ^ 53); [apply H|].
    apply Z.lt_le_trans with (10 ^ 20); [reflexivity|]. apply Z.pow_le_mono_r; lia.
  Qed.
  Lemma js_small_text z : small z -> js_enc fl (VInt z) = Ok (codes (str_of_Z z)).
  Proof.
    intros H. destruct (js_small z H) as (b & E & _). cbn [js_enc] in E |- *. unfold js_int in *. destruct (_ <? _); [discriminate|reflexivity].
  Qed.
  Lemma js_body zs l t : Forall small zs -> js_items_enc fl false (map VInt zs ++ l) = Ok t ->
    exists t', js_items_enc fl false l = Ok t' /\ t = body_text zs ++ t'.
  Proof.
    intros S. revert t. induction S as [|z zs Sz S IH]; intros t E; [exists t; auto|]. cbn [map app] in E. rewrite js_items_cons in E.
    apply cat_t_ok in E. destruct E as (y & w & [= <-] & E & ->). apply cat_t_ok in E. destruct E as (y & w' & E1 & E2 & ->).
    rewrite (js_small_text z Sz) in E1. injection E1 as <-. destruct (IH _ E2) as (t' & Et & ->). exists t'. split; [exact Et|].
    cbn [body_text flat_map sep app]. fold (body_text zs). rewrite <- app_assoc. reflexivity.
  Qed.
  Lemma js_head_elems f c u (C : c = 93 \/ c = 44) : forall zs z n x y, small z -> Forall small zs ->
    js_elems (js_dec fl (S f)) n (codes (str_of_Z z) ++ body_text zs ++ c :: u) = Ok (x, y) -> exists l', x = VInt z :: map VInt zs ++ l'.
  Proof.
    induction zs as [|z' zs IH]; intros z n x y Sz S D; (destruct n as [|n]; [discriminate|]); cbn [js_elems] in D;
      destruct (js_small z Sz) as (b & E & _ & _ & _ & R); rewrite (js_small_text z Sz) in E; injection E as <-.
    - cbn [body_text flat_map app] in D. rewrite R in D; [|destruct C as [-> | ->]; cbn; auto|cbn; lia]. cbn [bind] in D.
      destruct C as [-> | ->].
      + change (skip_ws (93 :: u)) with (93 :: u) in D. change (93 =? 93) with true in D. injection D as <- _. exists []. reflexivity.
      + change (skip_ws (44 :: u)) with (44 :: u) in D. change (44 =? 93) with false in D. change (44 =? 44) with true in D. cbv iota in D.
        destruct (js_elems _ _ _) as [[l r]|]; [|discriminate]. injection D as <- _. exists l. reflexivity.
    - inversion S as [|? ? Sz' S']; subst. cbn [body_text flat_map app] in D. fold (body_text zs) in D.
      rewrite R in D; [|cbn; auto|cbn; lia]. cbn [bind] in D.
      match type of D with context [skip_ws (44 :: ?q)] => change (skip_ws (44 :: q)) with (44 :: q) in D end.
      change (44 =? 93) with false in D. change (44 =? 44) with true in D. cbv iota in D.
      rewrite <- app_assoc in D. destruct (js_small z' Sz') as (b & E & St & _). rewrite (js_small_text z' Sz') in E. injection E as <-.
      rewrite starts_ws' in D by exact St.
      destruct (js_elems _ _ _) as [[l r]|] eqn:F; [|discriminate]. injection D as <- _.
      destruct (IH _ _ _ _ Sz' S' F) as (l' & ->). exists l'. reflexivity.
  Qed.
  Lemma body_ascii zs : Forall small zs -> ascii_text (body_text zs).
  Proof.
    intros S. induction S as [|z zs Sz S IH]; [constructor|]. cbn [body_text flat_map]. fold (body_text zs).
    destruct (js_small z Sz) as (b & E & _ & A & _). rewrite (js_small_text z Sz) in E. injection E as <-.
    repeat (constructor; [lia|]). apply Forall_app. split; assumption.
  Qed.
  Lemma js_keeps_head : keeps_head (json fl).
  Proof.
    intros zs l b v S N L E D. cbn [dumps loads json] in *. unfold js_dumps in E. destruct (js_enc fl _) as [t|] eqn:Et; [|discriminate]. injection E as <-.
    destruct zs as [|z zs]; [congruence|]. inversion S as [|? ? Sz S']; subst. cbn [map app] in Et.
    change (js_enc fl (VList (VInt z :: map VInt zs ++ l))) with (cat_t (Ok [91]) (js_items_enc fl true (VInt z :: map VInt zs ++ l))) in Et.
    apply cat_t_ok in Et. destruct Et as (y & w & [= <-] & Et & ->).
    rewrite js_items_cons in Et.
    apply cat_t_ok in Et. destruct Et as (y & w' & [= <-] & Et & ->). cbn [sep app] in *. apply cat_t_ok in Et. destruct Et as (y & w & E1 & E2 & ->).
    rewrite (js_small_text z Sz) in E1. injection E1 as <-. destruct (js_body zs l w S' E2) as (t' & Et & ->).
    destruct (js_ends l t' Et) as (c & t & -> & C).
    destruct (js_small z Sz) as (b & E & St & A & _). rewrite (js_small_text z Sz) in E. injection E as <-.
    unfold js_loads in D. destruct (str_points _) as [u|] eqn:U; [|discriminate].
    replace (91 :: codes (str_of_Z z) ++ body_text zs ++ c :: t) with ((91 :: codes (str_of_Z z) ++ body_text zs ++ [c]) ++ t) in U
      by (cbn [app]; rewrite <- !app_assoc; reflexivity).
    apply str_points_prefix in U.
    2:{ constructor; [lia|]. unfold ascii_text. rewrite !Forall_app. split; [exact A|]. split; [apply body_ascii, S'|]. constructor; [destruct C as [-> | ->]; lia|constructor]. }
    destruct U as (u' & -> & _). cbn [app] in D. rewrite <- !app_assoc in D. cbn [app] in D.
    unfold js_decode in D. change (skip_ws (91 :: codes (str_of_Z z) ++ body_text zs ++ c :: u')) with (91 :: codes (str_of_Z z) ++ body_text zs ++ c :: u') in D.
    set (k := length _) in D. assert (K : exists f, k = Datatypes.S (Datatypes.S f)).
    { subst k. cbn [length]. rewrite !app_length. cbn [length]. exists (length (codes (str_of_Z z)) + (length (body_text zs) + length u'))%nat. lia. }
    destruct K as [f K]. rewrite K in D. clear K k.
    destruct (js_dec fl _ _) as [[x r]|] eqn:F; [|discriminate]. cbn [bind] in D. assert (v = x) by (destruct (skip_ws r); [injection D as <-; reflexivity|discriminate]). subst x. clear D.
    remember (Datatypes.S f) as g eqn:Eg. cbn [js_dec] in F. change (91 =? 34) with false in F. change (91 =? 91) with true in F. cbv iota in F.
    cbn [js_nest] in F. rewrite starts_ws in F by exact St. destruct St as (c0 & t0 & Ec & W & N1 & N2). destruct (codes (str_of_Z z)) as [|c1 t1] eqn:Ez; [discriminate|]. injection Ec as -> ->.
    cbn [app] in F. destruct (Z.eqb_spec c0 93); [congruence|].
    destruct (js_elems _ _ _) as [[x r']|] eqn:G; [|discriminate]. injection F as <- <-.
    change (c0 :: t0 ++ body_text zs ++ c :: u') with ((c0 :: t0) ++ body_text zs ++ c :: u') in G. rewrite <- Ez in G.
    subst g. destruct (js_head_elems _ _ _ C _ _ _ _ _ Sz S' G) as (l' & ->). exists l'. reflexivity.
  Qed.
  Context (U : unknown).
  Definition jso_items_enc := fix items (first : bool) (l : list val) : res (list Z) :=
    match l with [] => Ok [93] | x :: l' => cat_t (Ok (if first then [] else [44; 32])) (cat_t (jso_enc U fl x) (items false l')) end.
  Lemma jso_items_cons first x l : jso_items_enc first (x :: l) = cat_t (Ok (sep first)) (cat_t (jso_enc U fl x) (jso_items_enc false l)).
  Proof. reflexivity. Qed.
  Lemma jso_small_text z : small z -> jso_enc U fl (VInt z) = Ok (codes (str_of_Z z)).
  Proof. exact (js_small_text z). Qed.
  Lemma jso_ends l t : jso_items_enc false l = Ok t -> exists c t', t = c :: t' /\ (c = 93 \/ c = 44).
  Proof.
    destruct l as [|x l]; [intros [= <-]; exists 93, []; auto|]. rewrite jso_items_cons. intros H. apply cat_t_ok in H. destruct H as (y & z & [= <-] & _ & ->).
    cbn [sep app]. eexists _, _. auto.
  Qed.
  Lemma jso_body zs l t : Forall small zs -> jso_items_enc false (map VInt zs ++ l) = Ok t ->
    exists t', jso_items_enc false l = Ok t' /\ t = body_text zs ++ t'.
  Proof.
    intros S. revert t. induction S as [|z zs Sz S IH]; intros t E; [exists t; auto|]. cbn [map app] in E. rewrite jso_items_cons in E.
    apply cat_t_ok in E. destruct E as (y & w & [= <-] & E & ->). apply cat_t_ok in E. destruct E as (y & w' & E1 & E2 & ->).
    rewrite (jso_small_text z Sz) in E1. injection E1 as <-. destruct (IH _ E2) as (t' & Et & ->). exists t'. split; [exact Et|].
    cbn [body_text flat_map sep app]. fold (body_text zs). rewrite <- app_assoc. reflexivity.
  Qed.
  Lemma jso_keeps_head : keeps_head (json_open U fl).
  Proof.
    intros zs l b v S N L E D. cbn [dumps loads json_open] in *. destruct (jso_enc U fl _) as [t|] eqn:Et; [|discriminate]. injection E as <-.
    destruct zs as [|z zs]; [congruence|]. inversion S as [|? ? Sz S']; subst. cbn [map app] in Et.
    change (jso_enc U fl (VList (VInt z :: map VInt zs ++ l))) with (cat_t (Ok [91]) (jso_items_enc true (VInt z :: map VInt zs ++ l))) in Et.
    apply cat_t_ok in Et. destruct Et as (y & w & [= <-] & Et & ->).
    rewrite jso_items_cons in Et.
    apply cat_t_ok in Et. destruct Et as (y & w' & [= <-] & Et & ->). cbn [sep app] in *. apply cat_t_ok in Et. destruct Et as (y & w & E1 & E2 & ->).
    rewrite (jso_small_text z Sz) in E1. injection E1 as <-. destruct (jso_body zs l w S' E2) as (t' & Et & ->).
    destruct (jso_ends l t' Et) as (c & t & -> & C).
    destruct (js_small z Sz) as (b & E & St & A & _). rewrite (js_small_text z Sz) in E. injection E as <-.
    unfold js_loads in D. destruct (str_points _) as [u|] eqn:Eu; [|discriminate].
    replace (91 :: codes (str_of_Z z) ++ body_text zs ++ c :: t) with ((91 :: codes (str_of_Z z) ++ body_text zs ++ [c]) ++ t) in Eu
      by (cbn [app]; rewrite <- !app_assoc; reflexivity).
    apply str_points_prefix in Eu.
    2:{ constructor; [lia|]. unfold ascii_text. rewrite !Forall_app. split; [exact A|]. split; [apply body_ascii, S'|]. constructor; [destruct C as [-> | ->]; lia|constructor]. }
    destruct Eu as (u' & -> & _). cbn [app] in D. rewrite <- !app_assoc in D. cbn [app] in D.
    unfold js_decode in D. change (skip_ws (91 :: codes (str_of_Z z) ++ body_text zs ++ c :: u')) with (91 :: codes (str_of_Z z) ++ body_text zs ++ c :: u') in D.
    set (k := length _) in D. assert (K : exists f, k = Datatypes.S (Datatypes.S f)).
    { subst k. cbn [length]. rewrite !app_length. cbn [length]. exists (length (codes (str_of_Z z)) + (length (body_text zs) + length u'))%nat. lia. }
    destruct K as [f K]. rewrite K in D. clear K k.
    destruct (js_dec fl _ _) as [[x r]|] eqn:F; [|discriminate]. cbn [bind] in D. assert (v = x) by (destruct (skip_ws r); [injection D as <-; reflexivity|discriminate]). subst x. clear D.
    remember (Datatypes.S f) as g eqn:Eg. cbn [js_dec] in F. change (91 =? 34) with false in F. change (91 =? 91) with true in F. cbv iota in F.
    cbn [js_nest] in F. rewrite starts_ws in F by exact St. destruct St as (c0 & t0 & Ec & W & N1 & N2). destruct (codes (str_of_Z z)) as [|c1 t1] eqn:Ez; [discriminate|]. injection Ec as -> ->.
    cbn [app] in F. destruct (Z.eqb_spec c0 93); [congruence|].
    destruct (js_elems _ _ _) as [[x r']|] eqn:G; [|discriminate]. injection F as <- <-.
    change (c0 :: t0 ++ body_text zs ++ c :: u') with ((c0 :: t0) ++ body_text zs ++ c :: u') in G. rewrite <- Ez in G.
    subst g. destruct (js_head_elems _ _ _ C _ _ _ _ _ Sz S' G) as (l' & ->). exists l'. reflexivity.
  Qed.
End Json.

Theorem python_keeps_head c : is_python_codec c -> keeps_head c.
Proof. intros [->|[->|[->|(U & [->|[->| ->]])]]]; [apply js_keeps_head|exact mp_keeps_head|exact cb_keeps_head|exact (jso_keeps_head _ U)|exact (mpo_keeps_head U)|exact (cbo_keeps_head U)]. Qed.
