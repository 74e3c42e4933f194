(** * WeightFacts: a decoded value weighs no more than its octets. *)
From Coq Require Import String Ascii List ZArith Bool Lia.
From Verif Require Import PyBase Encoding EncodingFacts Messages Parse Serializer CodecBase SpecCodec MsgPack Cbor Json JsonBytes Float Codecs
  SpecFormat FormatFacts SpecCbor SpecMsgPack SpecJson CborFormat MsgPackFormat JsonFormat FormatMessages SpecPayload PayloadFacts SpecWeight SpecSchema RoundTripFacts CodecsFacts.
Import ListNotations.
Local Open Scope Z_scope.

Definition wl (l : list val) : Z := fold_right (fun x n => weight x + n) 0 l.
Definition wd (d : list (val * val)) : Z := fold_right (fun e n => weight (fst e) + weight (snd e) + n) 0 d.
Lemma weight_list l : weight (VList l) = 1 + wl l.
Proof. cbn [weight]. apply (f_equal (Z.add 1)). induction l as [|x l IH]; [reflexivity|]. cbn [wl fold_right]. f_equal; exact IH. Qed.
Lemma weight_dict d : weight (VDict d) = 1 + wd d.
Proof. cbn [weight]. apply (f_equal (Z.add 1)). induction d as [|[k x] d IH]; [reflexivity|]. cbn [wd fold_right fst snd]. f_equal; exact IH. Qed.
Lemma wd_app a b : wd (a ++ b) = wd a + wd b.
Proof. induction a as [|e a IH]; [reflexivity|]. cbn [app wd fold_right]. fold (wd (a ++ b)). fold (wd a). lia. Qed.
Lemma count_nonneg {A} (l : list A) : 0 <= count l. Proof. unfold count. lia. Qed.
Lemma count_app {A} (a b : list A) : count (a ++ b) = count a + count b. Proof. unfold count. rewrite app_length. lia. Qed.
Lemma count_cons {A} (x : A) l : count (x :: l) = 1 + count l. Proof. unfold count. cbn [length]. lia. Qed.
Lemma weight_pos : forall v, 1 <= weight v.
Proof.
  fix IH 1. intros [| | | |s|b|l|d|]; try (cbn [weight]; lia).
  - cbn [weight]. pose proof (Z.log2_nonneg (Z.abs z)). pose proof (Z.div_pos (Z.log2 (Z.abs z)) 8). lia.
  - cbn [weight]. pose proof (count_nonneg (encode_str s)). lia.
  - cbn [weight]. pose proof (count_nonneg b). lia.
  - rewrite weight_list. induction l as [|x l L]; [cbn; lia|]. cbn [wl fold_right]. fold (wl l). pose proof (IH x). lia.
  - rewrite weight_dict. induction d as [|[k x] d D]; [cbn; lia|]. cbn [wd fold_right fst snd]. fold (wd d). pose proof (IH k). pose proof (IH x). lia.
Qed.
Lemma collect_weight ps d : collect ps d -> wd d <= wd ps.
Proof.
  induction 1 as [|ps d k x _ IH _|ps d1 d2 k k' x y _ IH _]; [cbn; lia| |]; rewrite !wd_app in *.
  - lia.
  - cbn [wd fold_right fst snd] in *. fold (wd d2) in *. pose proof (weight_pos k). pose proof (weight_pos y). lia.
Qed.

(** Integers. *)
Lemma log2_octets z n : 0 <= n -> Z.abs z < 256 ^ n -> Z.log2 (Z.abs z) / 8 <= n.
Proof.
  intros N H. destruct (Z.eq_dec (Z.abs z) 0) as [->|Nz]; [cbn; lia|].
  assert (L : Z.log2 (Z.abs z) < 8 * n). { apply Z.log2_lt_pow2; [lia|]. rewrite Z.pow_mul_r by lia. exact H. }
  apply Z.lt_le_incl. apply Z.div_lt_upper_bound; lia.
Qed.
Lemma log2_octets_le z n : 0 <= n -> Z.abs z <= 256 ^ n -> Z.log2 (Z.abs z) / 8 <= n.
Proof.
  intros N H. apply Z.div_le_upper_bound; [lia|]. replace (8 * n) with (Z.log2 (2 ^ (8 * n))) by (apply Z.log2_pow2; lia).
  apply Z.log2_le_mono. rewrite Z.pow_mul_r by lia. exact H.
Qed.
Lemma value_range a : 0 <= value a < 256.
Proof. unfold value. pose proof (N_ascii_bounded a). lia. Qed.
Lemma number_range b : 0 <= number b < 256 ^ count b.
Proof.
  induction b as [|a b IH]; [cbn; lia|]. cbn [number]. rewrite count_cons. rewrite Z.pow_add_r by (pose proof (count_nonneg b); lia).
  pose proof (value_range a). assert (0 < 256 ^ count b) by (apply Z.pow_pos_nonneg; [lia|apply count_nonneg]). nia.
Qed.
Lemma weight_int z n : 0 <= n -> Z.abs z <= 256 ^ n -> weight (VInt z) <= 1 + n.
Proof. intros N H. cbn [weight]. pose proof (log2_octets_le z n N H). lia. Qed.

(** CBOR *)
Lemma head_count m n h : head m n h -> 0 <= n /\ n < 256 ^ (count h - 1) + 23 /\ 1 <= count h /\ weight (VInt n) <= count h /\ weight (VInt (- 1 - n)) <= count h.
Proof.
  intros H; inversion H as [k R|info b I]; subst.
  - unfold count. cbn [length Z.of_nat Pos.of_succ_nat]. split; [lia|]. split; [cbn; lia|]. split; [lia|].
    assert (W : forall z, Z.abs z <= 24 -> weight (VInt z) <= 1).
    { intros z Hz. cbn [weight]. pose proof (Z.log2_le_mono (Z.abs z) 24 Hz) as L. change (Z.log2 24) with 4 in L.
      pose proof (Z.log2_nonneg (Z.abs z)). rewrite Z.div_small by lia. lia. }
    split; apply W; lia.
  - pose proof (number_range b) as R. rewrite count_cons. pose proof (count_nonneg b).
    replace (1 + count b - 1) with (count b) by lia. split; [lia|]. split; [lia|]. split; [lia|].
    split; apply weight_int; lia.
Qed.
Lemma chunks_count m ok x b : chunks m ok x b -> count x <= count b.
Proof.
  induction 1 as [|x h y b H _ _ IH]; [lia|]. rewrite !count_app. destruct (head_count _ _ _ H) as (_ & _ & P & _). lia.
Qed.
Lemma str_weight x : weight (VStr (decode_str x)) = 1 + count x.
Proof. cbn [weight]. rewrite encode_decode_str. reflexivity. Qed.
Scheme citem_m := Induction for SpecCbor.item Sort Prop
  with citems_m := Induction for SpecCbor.items Sort Prop
  with cpairs_m := Induction for SpecCbor.pairs Sort Prop.
Combined Scheme citem_all from citem_m, citems_m, cpairs_m.
Lemma cbor_weights l :
  (forall v b, SpecCbor.item l v b -> weight v <= count b) /\ (forall vs b, SpecCbor.items l vs b -> wl vs <= count b) /\
  (forall ps b, SpecCbor.pairs l ps b -> wd ps <= count b).
Proof.
  apply (citem_all l (fun v b _ => weight v <= count b) (fun vs b _ => wl vs <= count b) (fun ps b _ => wd ps <= count b)); intros;
    repeat match goal with
           | H : head _ _ _ |- _ => let A := fresh in let B := fresh in let C := fresh in let D := fresh in let E := fresh in
               pose proof (head_count _ _ _ H) as (A & B & C & D & E); clear H
           | H : chunks _ _ _ _ |- _ => apply chunks_count in H
           | H : collect _ _ |- _ => apply collect_weight in H
           end;
    rewrite ?weight_list, ?weight_dict, ?str_weight, ?count_cons, ?count_app, ?count_cons; cbn [wl wd fold_right fst snd] in *;
    repeat match goal with |- context [fold_right (fun x n => weight x + n) 0 ?q] => fold (wl q) | |- context [fold_right _ 0 ?q] => fold (wd q) end;
    try (cbn [weight]; rewrite ?count_app, ?count_cons; unfold count in *; cbn [length] in *; lia).
  all: try assumption; try (unfold count; cbn; lia).
  - match goal with H : weight (VBytes x) <= _ |- _ => cbn [weight] in H end.
    pose proof (weight_int (number x) (count x) (count_nonneg x)) as W. pose proof (number_range x). lia.
  - match goal with H : weight (VBytes x) <= _ |- _ => cbn [weight] in H end.
    pose proof (weight_int (- 1 - number x) (count x) (count_nonneg x)) as W. pose proof (number_range x). lia.
Qed.

(** MessagePack *)
Lemma sized_count f w n h : sized f w n h -> 0 <= n < 256 ^ w /\ count h = 1 + w /\ 0 <= w.
Proof. intros (b & -> & C & <-). rewrite count_cons, C. pose proof (number_range b) as R. rewrite C in R. pose proof (count_nonneg b). lia. Qed.
Lemma short_count f m n h : short f m n h -> 0 <= n < m /\ count h = 1.
Proof. intros [R ->]. split; [exact R|reflexivity]. Qed.
Ltac heads := repeat match goal with
  | H : _ \/ _ |- _ => destruct H as [H|H]
  | H : sized _ _ _ _ |- _ => apply sized_count in H
  | H : short _ _ _ _ |- _ => apply short_count in H
  end.
Lemma str_head_count n h : str_head n h -> 1 <= count h. Proof. unfold str_head. intros H. heads; lia. Qed.
Lemma bin_head_count n h : bin_head n h -> 1 <= count h. Proof. unfold bin_head. intros H. heads; lia. Qed.
Lemma array_head_count n h : array_head n h -> 1 <= count h. Proof. unfold array_head. intros H. heads; lia. Qed.
Lemma map_head_count n h : map_head n h -> 1 <= count h. Proof. unfold map_head. intros H. heads; lia. Qed.
Lemma complement_weight w z : 1 <= w -> 0 <= z < 256 ^ w -> weight (VInt (complement w z)) <= 1 + w.
Proof.
  intros W R. apply weight_int; [lia|]. unfold complement. change 256 with (2 ^ 8) in *. rewrite <- Z.pow_mul_r in * by lia.
  assert (2 ^ (8 * w) = 2 * 2 ^ (8 * w - 1)). { rewrite <- Z.pow_succ_r by lia. f_equal. lia. }
  destruct (Z.ltb_spec z (2 ^ (8 * w - 1))); lia.
Qed.
Lemma small_weight z : Z.abs z < 256 -> weight (VInt z) <= 1.
Proof.
  intros H. cbn [weight]. pose proof (Z.log2_le_mono (Z.abs z) 255 ltac:(lia)) as L. change (Z.log2 255) with 7 in L.
  pose proof (Z.log2_nonneg (Z.abs z)). rewrite Z.div_small by lia. lia.
Qed.
Scheme mitem_m := Induction for SpecMsgPack.item Sort Prop
  with mitems_m := Induction for SpecMsgPack.items Sort Prop
  with mpairs_m := Induction for SpecMsgPack.pairs Sort Prop.
Combined Scheme mitem_all from mitem_m, mitems_m, mpairs_m.
Lemma msgpack_weights :
  (forall n v b, SpecMsgPack.item n v b -> weight v <= count b) /\ (forall n vs b, SpecMsgPack.items n vs b -> wl vs <= count b) /\
  (forall n ps b, SpecMsgPack.pairs n ps b -> wd ps <= count b).
Proof.
  apply (mitem_all (fun n v b _ => weight v <= count b) (fun n vs b _ => wl vs <= count b) (fun n ps b _ => wd ps <= count b)); intros;
    repeat match goal with
           | H : str_head _ _ |- _ => apply str_head_count in H
           | H : bin_head _ _ |- _ => apply bin_head_count in H
           | H : array_head _ _ |- _ => apply array_head_count in H
           | H : map_head _ _ |- _ => apply map_head_count in H
           | H : collect _ _ |- _ => apply collect_weight in H
           | H : sized _ _ _ _ |- _ => apply sized_count in H
           | H : short _ _ _ _ |- _ => apply short_count in H
           end;
    rewrite ?weight_list, ?weight_dict, ?str_weight, ?count_cons, ?count_app, ?count_cons; cbn [wl wd fold_right fst snd] in *;
    repeat match goal with |- context [fold_right (fun x n => weight x + n) 0 ?q] => fold (wl q) | |- context [fold_right _ 0 ?q] => fold (wd q) end;
    try (unfold count in *; cbn [length weight] in *; lia).
  - pose proof (small_weight z ltac:(lia)). lia.
  - pose proof (small_weight z ltac:(lia)). unfold count. cbn [length]. lia.
  - pose proof (weight_int z width ltac:(lia) ltac:(lia)). lia.
  - destruct s as (R & C & W0). assert (1 <= width) by (cbn [In] in i; decompose [or] i; try contradiction; match goal with H : _ = (first, width) |- _ => injection H; lia end).
    pose proof (complement_weight width z ltac:(lia) R). lia.
  - cbn [weight]. pose proof (count_nonneg h). pose proof (count_nonneg x). lia.
Qed.

(** JSON: octets of a character. *)
Definition cost (c : Z) : Z := if c <? 128 then 1 else if c <? 2048 then 2 else if c <? 65536 then 3 else 4.
Definition costs (t : list Z) : Z := fold_right (fun c n => cost c + n) 0 t.
Lemma cost_range c : 1 <= cost c <= 4.
Proof. unfold cost. destruct (c <? 128), (c <? 2048), (c <? 65536); lia. Qed.
Lemma costs_app a b : costs (a ++ b) = costs a + costs b.
Proof. induction a as [|c a IH]; [reflexivity|]. cbn [app costs fold_right]. fold (costs (a ++ b)). fold (costs a). lia. Qed.
Lemma costs_cons c t : costs (c :: t) = cost c + costs t. Proof. reflexivity. Qed.
Lemma costs_count t : count t <= costs t.
Proof. induction t as [|c t IH]; [cbn; lia|]. rewrite costs_cons, count_cons. pose proof (cost_range c). lia. Qed.
Lemma chars_cost t os : chars t os -> count os = costs t.
Proof.
  induction 1 as [|p ps o os C _ IH|b c ps os B C _ IH]; [reflexivity| |].
  - rewrite count_app, costs_cons, IH. f_equal. unfold cost. destruct C; unfold count; cbn [length];
      repeat match goal with |- context [?x <? ?y] => destruct (Z.ltb_spec x y) end; lia.
  - rewrite !count_cons, costs_cons, IH. unfold cost. repeat match goal with |- context [?x <? ?y] => destruct (Z.ltb_spec x y) end; lia.
Qed.
Lemma unit_range u x : SpecJson.unit u x -> 0 <= u < 65536 /\ count x = 6.
Proof.
  intros H; inversion H as [n1 n2 n3 n4 c1 c2 c3 c4 H1 H2 H3 H4]; subst.
  assert (R : forall n c, hexdigit n c -> 0 <= n < 16) by (intros n c K; inversion K; lia).
  apply R in H1, H2, H3, H4. split; [lia|reflexivity].
Qed.
Lemma body_cost x t : body x t -> costs x <= costs t.
Proof.
  induction 1 as [|c s t A B C _ IH|e c s t E _ IH|u w x y s t X _ Y _ _ IH|u x s t X _ _ IH].
  - lia.
  - rewrite !costs_cons. lia.
  - rewrite !costs_cons. assert (cost c = 1). { unfold escapes in E. cbn [In] in E. decompose [or] E; try contradiction; match goal with H : _ = (e, c) |- _ => injection H as <- <-; reflexivity end. }
    pose proof (cost_range e). pose proof (cost_range 92). lia.
  - rewrite !costs_app, costs_cons. destruct (unit_range _ _ X) as [_ CX]. destruct (unit_range _ _ Y) as [_ CY].
    pose proof (costs_count x). pose proof (costs_count y). pose proof (cost_range (65536 + 1024 * (u - 55296) + (w - 56320))). lia.
  - rewrite costs_app, costs_cons. destruct (unit_range _ _ X) as [_ CX]. pose proof (costs_count x). pose proof (cost_range u). lia.
Qed.
Lemma str_of_weight x s : str_of x s -> weight (VStr s) = 1 + costs x.
Proof. intros H. cbn [weight]. rewrite <- (chars_cost _ _ H). unfold count. rewrite map_length. reflexivity. Qed.
Lemma decimal_range d : Forall digit d -> 0 <= decimal d < 10 ^ count d.
Proof.
  induction 1 as [|c d C _ IH]; [cbn; lia|]. cbn [decimal]. rewrite count_cons. rewrite Z.pow_add_r by (pose proof (count_nonneg d); lia).
  unfold digit in C. assert (0 < 10 ^ count d) by (apply Z.pow_pos_nonneg; [lia|apply count_nonneg]). nia.
Qed.
Lemma whole_digits i : whole i -> Forall digit i /\ 1 <= count i.
Proof.
  intros H; inversion H; subst; (split; [|rewrite ?count_cons; pose proof (@count_nonneg Z); auto]).
  - repeat constructor; unfold digit; lia.
  - unfold count. cbn. lia.
  - constructor; [unfold digit; lia|assumption].
  - specialize (H2 d). lia.
Qed.
Lemma whole_weight i : whole i -> weight (VInt (decimal i)) <= count i /\ weight (VInt (- decimal i)) <= count i.
Proof.
  intros W. destruct (whole_digits i W) as [D C]. apply decimal_range in D.
  assert (L : Z.log2 (decimal i) / 8 + 1 <= count i).
  { destruct (Z.eq_dec (decimal i) 0) as [->|N]; [cbn; lia|]. assert (Z.log2 (decimal i) < 4 * count i).
    { apply Z.log2_lt_pow2; [lia|]. rewrite Z.pow_mul_r by lia. change (2 ^ 4) with 16. pose proof (Z.pow_le_mono_l 10 16 (count i)). lia. }
    assert (Z.log2 (decimal i) / 8 < count i) by (apply Z.div_lt_upper_bound; lia). lia. }
  cbn [weight]. rewrite Z.abs_opp, Z.abs_eq by lia. lia.
Qed.
Lemma json_weights l :
  (forall v t, element l v t -> weight v <= costs t) /\ (forall vs t, SpecJson.items l vs t -> wl vs <= costs t) /\
  (forall ps t, members l ps t -> wd ps <= costs t) /\ (forall k x t, SpecJson.pair l k x t -> weight k + weight x <= costs t).
Proof.
  apply (element_all l (fun v t _ => weight v <= costs t) (fun vs t _ => wl vs <= costs t) (fun ps t _ => wd ps <= costs t) (fun k x t _ => weight k + weight x <= costs t)).
  1-6: intros; vm_compute; discriminate.
  - intros m s i S W _. rewrite costs_app. pose proof (costs_count s). pose proof (count_nonneg s). pose proof (costs_count i). pose proof (whole_weight i W). destruct m; lia.
  - intros m s i d f x e g S W _ _ _ _. rewrite !costs_app. cbn [weight]. pose proof (costs_count s). pose proof (count_nonneg s). pose proof (costs_count i).
    pose proof (costs_count f). pose proof (count_nonneg f). pose proof (costs_count e). pose proof (count_nonneg e). pose proof (proj2 (whole_digits i W)). lia.
  - intros x s t B S. rewrite (str_of_weight x s S), costs_cons, costs_app. apply body_cost in B. change (cost 34) with 1. change (costs [34]) with 1. lia.
  - intros w _. rewrite costs_cons, costs_app. change (cost 91) with 1. change (costs [93]) with 1. pose proof (costs_count w). pose proof (count_nonneg w). cbn [weight]. lia.
  - intros vs t _ IH. rewrite weight_list, costs_cons, costs_app. change (cost 91) with 1. change (costs [93]) with 1. lia.
  - intros w _. rewrite costs_cons, costs_app. change (cost 123) with 1. change (costs [125]) with 1. pose proof (costs_count w). pose proof (count_nonneg w). cbn [weight]. lia.
  - intros ps d t _ IH C. rewrite weight_dict, costs_cons, costs_app. change (cost 123) with 1. change (costs [125]) with 1. apply collect_weight in C. lia.
  - intros v w t w' _ _ IH _. rewrite !costs_app. pose proof (costs_count w). pose proof (count_nonneg w). pose proof (costs_count w'). pose proof (count_nonneg w').
    unfold wl. cbn [fold_right]. lia.
  - intros v w t w' vs u _ _ IH _ _ IH'. rewrite !costs_app, costs_cons. pose proof (costs_count w). pose proof (count_nonneg w). pose proof (costs_count w'). pose proof (count_nonneg w').
    change (cost 44) with 1. unfold wl in *. cbn [fold_right]. lia.
  - intros k x w _ IH. unfold wd. cbn [fold_right fst snd]. lia.
  - intros k x w ps u _ IH _ IH'. rewrite costs_app, costs_cons. change (cost 44) with 1. unfold wd in *. cbn [fold_right fst snd]. lia.
  - intros x s k v t w1 w2 w3 w4 _ B S _ _ _ IH _. rewrite (str_of_weight x s S). apply body_cost in B.
    repeat (rewrite costs_app || rewrite costs_cons). change (cost 34) with 1. change (cost 58) with 1.
    pose proof (costs_count w1). pose proof (count_nonneg w1). pose proof (costs_count w2). pose proof (count_nonneg w2).
    pose proof (costs_count w3). pose proof (count_nonneg w3). pose proof (costs_count w4). pose proof (count_nonneg w4). lia.
Qed.
Lemma document_weight l v t : document l v t -> weight v <= costs t.
Proof.
  intros (w & u & w' & _ & E & _ & ->). rewrite !costs_app. apply (proj1 (json_weights l)) in E.
  pose proof (costs_count w). pose proof (count_nonneg w). pose proof (costs_count w'). pose proof (count_nonneg w'). lia.
Qed.

(** What is received weighs no more than its octets. *)
Lemma cbor_weight b v : loads cbor b = Ok v -> weight v <= count b.
Proof. intros L. apply cbor_exact in L as (c & r & -> & I). apply (proj1 (cbor_weights true)) in I. rewrite count_app. pose proof (count_nonneg r). lia. Qed.
Lemma msgpack_weight b v : loads msgpack b = Ok v -> weight v <= count b.
Proof. intros L. apply msgpack_exact in L. exact (proj1 msgpack_weights _ _ _ L). Qed.
Lemma json_weight b v : loads python_json b = Ok v -> weight v <= count b.
Proof.
  intros L. apply json_exact in L as (t & C & D). apply document_weight in D. apply chars_cost in C. unfold count in *. rewrite map_length in C. lia.
Qed.

(** Payloads: the arguments together weigh less than their octets. *)
Lemma decode_weight v a k : decode v = Ok (a, k) -> args_weight a + kwargs_weight k < weight v.
Proof.
  unfold decode. intros H. destruct v as [| | | |s|b|l|d|]; try discriminate H; cbn [py_len bind] in H.
  - destruct (str_len s =? 0)%nat; [injection H as <- <-; pose proof (weight_pos (VStr s)); cbn [args_weight kwargs_weight]; lia|]. destruct (2 <? str_len s)%nat; discriminate H.
  - destruct (length b =? 0)%nat; [injection H as <- <-; pose proof (weight_pos (VBytes b)); cbn [args_weight kwargs_weight]; lia|]. destruct (2 <? length b)%nat; discriminate H.
  - rewrite weight_list. destruct l as [|x [|y [|z l]]]; [| | |discriminate H].
    + injection H as <- <-. cbn. lia.
    + cbn in H. destruct x; try discriminate H. injection H as <- <-. unfold wl. cbn [args_weight kwargs_weight fold_right]. lia.
    + cbn in H. destruct x; try discriminate H. destruct y; try discriminate H. injection H as <- <-. unfold wl. cbn [args_weight kwargs_weight fold_right]. lia.
  - rewrite weight_dict. destruct d as [|[kx x] [|[ky y] [|z d]]]; [| | |discriminate H].
    + injection H as <- <-. cbn. lia.
    + cbn [length Nat.eqb Nat.ltb Nat.leb py_index dict_index bind] in H. destruct (py_eq_int kx _); [|discriminate H]. cbn [bind] in H.
      destruct x; try discriminate H. injection H as <- <-. unfold wd. cbn [args_weight kwargs_weight fold_right fst snd]. pose proof (weight_pos kx). lia.
    + cbn [length Nat.eqb Nat.ltb Nat.leb py_index dict_index bind] in H.
      assert (P : exists u w, a = Some u /\ k = Some w /\ (x = VList u /\ y = VDict w \/ y = VList u /\ x = VDict w)).
      { destruct (py_eq_int kx (Z.of_nat 0)).
        - cbn [bind] in H. destruct x as [| | | | | |u| |]; try discriminate H. destruct (py_eq_int kx (Z.of_nat 1)); [discriminate H|].
          destruct (py_eq_int ky (Z.of_nat 1)); [|discriminate H]. cbn [bind] in H. destruct y as [| | | | | | |w|]; try discriminate H. injection H as <- <-. exists u, w. auto.
        - destruct (py_eq_int ky (Z.of_nat 0)); [|discriminate H]. cbn [bind] in H. destruct y as [| | | | | |u| |]; try discriminate H.
          destruct (py_eq_int kx (Z.of_nat 1)).
          + cbn [bind] in H. destruct x as [| | | | | | |w|]; try discriminate H. injection H as <- <-. exists u, w. auto.
          + destruct (py_eq_int ky (Z.of_nat 1)); discriminate H. }
      destruct P as (u & w & -> & -> & [[-> ->]|[-> ->]]); unfold wd; cbn [args_weight kwargs_weight fold_right fst snd]; pose proof (weight_pos kx); pose proof (weight_pos ky); lia.
Qed.

(** The serializers of the project. *)
Definition light (c : codec) : Prop := forall b v, loads c b = Ok v -> weight v <= count b.
Lemma python_light c : c = cbor \/ c = msgpack \/ c = python_json -> light c.
Proof. intros [->|[->| ->]] b v; [apply cbor_weight|apply msgpack_weight|apply json_weight]. Qed.
Lemma message_weight c b m : c = cbor \/ c = msgpack \/ c = python_json -> deserialize c b = Ok m ->
  (exists l, to_message (VList l) = Ok m /\ weight (VList l) <= count b) /\
  (filtered_class (class_of m) = false -> weight (VList (marshal m)) <= count b).
Proof.
  intros C D. unfold deserialize in D. destruct (loads c b) as [v|e] eqn:L; [|discriminate D]. cbn [bind] in D. pose proof (python_light c C b v L) as W. split.
  - destruct (to_message_list v m D) as [l ->]. exists l. auto.
  - intros F. destruct (remarshal v m D F) as (h & r & -> & -> & _). rewrite weight_list in *. unfold wl in *. cbn [fold_right] in *. pose proof (weight_pos h).
    assert (weight (VInt (message_TYPE m)) = 1) by (destruct m; reflexivity). lia.
Qed.
Lemma payload_weight c b a k : c = cbor \/ c = msgpack \/ c = python_json -> b <> [] -> decode_payload c b = Ok (a, k) -> args_weight a + kwargs_weight k < count b.
Proof.
  intros C N D. destruct b as [|o b]; [contradiction|]. cbn [decode_payload] in D. destruct (loads c (o :: b)) as [v|e] eqn:L; [|discriminate D]. cbn [bind] in D.
  pose proof (python_light c C _ _ L). pose proof (decode_weight v a k D). lia.
Qed.
