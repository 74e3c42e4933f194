(** * MsgPackFormat: msgpack.loads reads exactly the objects of the MessagePack specification (SpecMsgPack). *)
From Coq Require Import String Ascii List ZArith Bool Lia.
From Verif Require Import PyBase Rawsocket Encoding EncodingFacts Utf8 Utf8Facts CodecBase CodecFacts Serializer SpecCodec MsgPack MsgPackFacts Cbor CborFacts
  SpecFormat FormatFacts CborFormat SpecMsgPack.
Import ListNotations.
Local Open Scope Z_scope.

Scheme item_mut := Induction for item Sort Prop
  with items_mut := Induction for items Sort Prop
  with pairs_mut := Induction for pairs Sort Prop.
Combined Scheme item_all from item_mut, items_mut, pairs_mut.

Lemma octet_of z : octet z = byte_of z. Proof. reflexivity. Qed.
Lemma sized_take first width n h r : sized first width n h -> 0 <= width ->
  exists b, h ++ r = octet first :: b ++ r /\ take_int (Z.to_nat width) (b ++ r) = Ok (n, r) /\ count b = width /\ 0 <= n < 256 ^ width.
Proof.
  intros (b & -> & W & <-) P. exists b. split; [reflexivity|]. split; [apply take_int_count; unfold count in W; lia|]. split; [exact W|].
  rewrite <- W. apply number_range.
Qed.

Ltac unpacking := cbn [app mp_unpack]; rewrite ?octet_of, ?byte_Z_of by lia;
  cbn -[take_int take mp_array mp_map mp_nest mp_unpack mp_str mp_bin mp_ext Z.to_nat Z.add Z.sub widen signed].
Ltac unpack_sized H := let b := fresh "b" in let E := fresh "E" in let T := fresh "T" in
  destruct (sized_take _ _ _ _ ltac:(eassumption) H ltac:(lia)) as (b & E & T & _); rewrite E; unpacking;
  match type of T with take_int (Z.to_nat ?w) _ = _ => let n := eval compute in (Z.to_nat w) in change (Z.to_nat w) with n in T end; rewrite T; reflexivity.

Lemma sized_unpack first width n h r f lim (k : Z -> bytes -> res (val * bytes)) : sized first width n h -> 0 <= first < 256 -> 0 <= width ->
  (forall b, mp_unpack (S f) lim (octet first :: b) = let! (z, r') := take_int (Z.to_nat width) b in k z r') ->
  mp_unpack (S f) lim (h ++ r) = k n r.
Proof.
  intros H F W G. destruct (sized_take _ _ _ _ r H W) as (b & -> & T & _). rewrite G, T. reflexivity.
Qed.
Ltac by_size := eapply sized_unpack; [eassumption|lia|lia|intros; unpacking; reflexivity].

Lemma str_head_unpack n h f lim r : str_head n h -> mp_unpack (S f) lim (h ++ r) = mp_str lim n r.
Proof.
  intros [[N ->]|[H|[H|H]]]; [|by_size..]. cbn [app mp_unpack]. rewrite octet_of, byte_Z_of by lia. tests. f_equal. lia.
Qed.
Lemma bin_head_unpack n h f lim r : bin_head n h -> mp_unpack (S f) lim (h ++ r) = mp_bin lim n r.
Proof. intros [H|[H|H]]; by_size. Qed.
Lemma array_head_unpack n h f lim r : array_head n h -> mp_unpack (S f) lim (h ++ r) = mp_nest f (mp_array (mp_unpack f lim) lim n r).
Proof.
  intros [[N ->]|[H|H]]; [|eapply (sized_unpack _ _ _ _ _ _ _ (fun n r => mp_nest f (mp_array (mp_unpack f lim) lim n r))); [eassumption|lia|lia|intros; unpacking; reflexivity]..].
  cbn [app mp_unpack]. rewrite octet_of, byte_Z_of by lia. tests. do 2 f_equal. lia.
Qed.
Lemma map_head_unpack n h f lim r : map_head n h -> mp_unpack (S f) lim (h ++ r) = mp_nest f (mp_map (mp_unpack f lim) lim n r).
Proof.
  intros [[N ->]|[H|H]]; [|eapply (sized_unpack _ _ _ _ _ _ _ (fun n r => mp_nest f (mp_map (mp_unpack f lim) lim n r))); [eassumption|lia|lia|intros; unpacking; reflexivity]..].
  cbn [app mp_unpack]. rewrite octet_of, byte_Z_of by lia. tests. do 2 f_equal. lia.
Qed.
Lemma ext_head_unpack n h f lim r : ext_head n h -> mp_unpack (S f) lim (h ++ r) = mp_ext lim n r.
Proof.
  intros [H|[H|[H|H]]]; [by_size..|]. cbn [In] in H. destruct H as [[= <- <-]|[[= <- <-]|[[= <- <-]|[[= <- <-]|[[= <- <-]|[]]]]]]; unpacking; reflexivity.
Qed.
Lemma signed_complement n z : (0 < n)%nat -> signed n z = complement (Z.of_nat n) z.
Proof. intros N. reflexivity. Qed.

(** ** Every object is read. *)
Definition reads (n : nat) (v : val) (b : bytes) : Prop :=
  python_value v /\ (0 < length b)%nat /\ forall lim r, zlen b <= lim -> mp_unpack (S n) lim (b ++ r) = Ok (v, r).
Definition reads_items (n : nat) (l : list val) (b : bytes) : Prop :=
  (length l <= length b)%nat /\ forall lim r, zlen b <= lim -> mp_items (mp_unpack (S n) lim) (length l) (b ++ r) = Ok (l, r).
Definition reads_pairs (n : nat) (ps : list (val * val)) (b : bytes) : Prop :=
  keys_ok ps /\ (2 * length ps <= length b)%nat /\ forall lim d r, zlen b <= lim -> mp_pairs (mp_unpack (S n) lim) (length ps) d (b ++ r) = Ok (gather ps d, r).

Lemma short_length first max n h : short first max n h -> (0 < length h)%nat. Proof. intros [_ ->]. cbn; lia. Qed.
Lemma sized_length first width n h : sized first width n h -> (0 < length h)%nat. Proof. intros (b & -> & _). cbn; lia. Qed.
Lemma str_head_length n h : str_head n h -> (0 < length h)%nat.
Proof. intros [H|[H|[H|H]]]; eauto using short_length, sized_length. Qed.
Lemma bin_head_length n h : bin_head n h -> (0 < length h)%nat.
Proof. intros [H|[H|H]]; eauto using short_length, sized_length. Qed.
Lemma array_head_length n h : array_head n h -> (0 < length h)%nat.
Proof. intros [H|[H|H]]; eauto using short_length, sized_length. Qed.
Lemma map_head_length n h : map_head n h -> (0 < length h)%nat.
Proof. intros [H|[H|H]]; eauto using short_length, sized_length. Qed.
Lemma ext_head_length n h : ext_head n h -> (0 < length h)%nat.
Proof.
  intros [H|[H|[H|H]]]; eauto using short_length, sized_length. cbn [In] in H. destruct H as [[= <- <-]|[[= <- <-]|[[= <- <-]|[[= <- <-]|[[= <- <-]|[]]]]]]; cbn; lia.
Qed.
Lemma raw_count x lim r : zlen x <= lim -> mp_raw lim (count x) (x ++ r) = Ok (x, r).
Proof. exact (mp_raw_app x lim r). Qed.

Lemma all_read :
  (forall n v b, item n v b -> reads n v b) /\ (forall n l b, items n l b -> reads_items n l b) /\ (forall n ps b, pairs n ps b -> reads_pairs n ps b).
Proof.
  apply item_all.
  - intros n. repeat split; cbn; lia.
  - intros n. repeat split; cbn; lia.
  - intros n. repeat split; cbn; lia.
  - intros n z h [Z ->]. split; [exact I|]. split; [cbn; lia|]. intros lim r _. cbn [app mp_unpack]. rewrite octet_of, byte_Z_of by lia.
    destruct (Z.ltb_spec (0 + z) 128); [reflexivity|lia].
  - intros n z Z. split; [exact I|]. split; [cbn; lia|]. intros lim r _. cbn [app mp_unpack]. rewrite octet_of, byte_Z_of by lia. tests.
    replace (256 + z - 256) with z by lia. reflexivity.
  - intros n z first width h J H. split; [exact I|]. split; [eapply sized_length; exact H|]. intros lim r _. cbn [In] in J.
    destruct J as [[= <- <-]|[[= <- <-]|[[= <- <-]|[[= <- <-]|[]]]]]; eapply (sized_unpack _ _ _ _ _ _ _ (fun z r => Ok (VInt z, r))); try eassumption; try lia; intros; unpacking; reflexivity.
  - intros n z first width h J H. split; [exact I|]. split; [eapply sized_length; exact H|]. intros lim r _. cbn [In] in J.
    destruct J as [[= <- <-]|[[= <- <-]|[[= <- <-]|[[= <- <-]|[]]]]];
      [rewrite <- (signed_complement 1) by lia|rewrite <- (signed_complement 2) by lia|rewrite <- (signed_complement 4) by lia|rewrite <- (signed_complement 8) by lia];
      match goal with |- _ = Ok (VInt (signed ?k _), _) => eapply (sized_unpack _ _ _ _ _ _ _ (fun z r => Ok (VInt (signed k z), r))) end; try eassumption; try lia; intros; unpacking; reflexivity.
  - intros n z f h H F. destruct (sized_take _ _ _ _ [] H ltac:(lia)) as (_ & _ & _ & _ & Z). change (256 ^ 4) with (2 ^ 32) in Z.
    split; [apply F|]. split; [eapply sized_length; exact H|]. intros lim r _. rewrite (is_float_unique _ _ _ _ _ F (single_is_float z Z)).
    eapply (sized_unpack _ _ _ _ _ _ _ (fun z r => Ok (VFloat (widen 8 23 z), r))); try eassumption; try lia; intros; unpacking; reflexivity.
  - intros n z h H. destruct (sized_take _ _ _ _ [] H ltac:(lia)) as (_ & _ & _ & _ & Z). split; [exact Z|]. split; [eapply sized_length; exact H|]. intros lim r _.
    eapply (sized_unpack _ _ _ _ _ _ _ (fun z r => Ok (VFloat z, r))); try eassumption; try lia; intros; unpacking; reflexivity.
  - intros n x h H T. pose proof (str_head_length _ _ H). split; [apply str_python; exact T|]. split; [rewrite app_length; lia|]. intros lim r L. rewrite <- app_assoc, (str_head_unpack _ _ _ _ _ H).
    unfold mp_str. rewrite raw_count by (revert L; unfold zlen; rewrite app_length; lia). cbn [bind]. apply is_text_iff in T. rewrite T. reflexivity.
  - intros n x h H. pose proof (bin_head_length _ _ H). split; [exact I|]. split; [rewrite app_length; lia|]. intros lim r L. rewrite <- app_assoc, (bin_head_unpack _ _ _ _ _ H).
    unfold mp_bin. rewrite raw_count by (revert L; unfold zlen; rewrite app_length; lia). reflexivity.
  - intros n l h b H _ (Ll & R). pose proof (array_head_length _ _ H). split; [exact I|]. split; [rewrite app_length; lia|]. intros lim r L. revert L. unfold zlen. rewrite app_length. intros L.
    rewrite <- app_assoc, (array_head_unpack _ _ _ _ _ H). cbn [mp_nest]. unfold mp_array, count. destruct (Z.ltb_spec lim (Z.of_nat (length l))); [lia|].
    rewrite Nat2Z.id, R by (unfold zlen; lia). reflexivity.
  - intros n ps d h b H _ (K & Ll & R) C. apply (collect_iff ps d K) in C as <-. pose proof (map_head_length _ _ H). split; [exact I|]. split; [rewrite app_length; lia|]. intros lim r L. revert L. unfold zlen. rewrite app_length. intros L.
    rewrite <- app_assoc, (map_head_unpack _ _ _ _ _ H). cbn [mp_nest]. unfold mp_map, count.
    destruct (Z.ltb_spec (lim / 2) (Z.of_nat (length ps))) as [X|_]; [exfalso; apply Z.div_lt_upper_bound in X || (pose proof (Z.div_le_lower_bound lim 2 (Z.of_nat (length ps))); lia)|].
    rewrite Nat2Z.id, R by (unfold zlen; lia). reflexivity.
  - intros n kind x h H. pose proof (ext_head_length _ _ H). split; [exact I|]. split; [rewrite app_length; lia|]. intros lim r L. rewrite <- app_assoc, (ext_head_unpack _ _ _ _ _ H).
    unfold mp_ext. cbn [app]. change (kind :: x ++ r) with ([kind] ++ (x ++ r)). rewrite (take_app [kind]). cbn [bind].
    rewrite raw_count by (revert L; unfold zlen; rewrite app_length; cbn [length]; lia). reflexivity.
  - intros n. split; [cbn; lia|reflexivity].
  - intros n v l b c _ (Pv & Nv & Rv) _ (Ll & Rl). split; [cbn [length]; rewrite app_length; lia|]. intros lim r L. unfold zlen in *. rewrite app_length in L.
    cbn [length mp_items]. rewrite <- app_assoc, Rv by lia. cbn [bind]. rewrite Rl by lia. reflexivity.
  - intros n. split; [constructor|]. split; [cbn; lia|reflexivity].
  - intros n k x ps b c e _ (Pk & Nk & Rk) S _ (Px & Nx & Rx) _ (K & Lps & Rps). split; [constructor; assumption|]. split; [cbn [length]; rewrite !app_length; lia|].
    intros lim d r L. unfold zlen in *. rewrite !app_length in L. cbn [length mp_pairs]. rewrite <- !app_assoc, Rk by lia. cbn [bind].
    replace (MsgPack.is_text k) with true by (destruct k; contradiction S || reflexivity). rewrite Rx by lia. cbn [bind]. rewrite Rps by lia. reflexivity.
Qed.

(** ** What is read is an object. *)
Definition cuts (n : nat) (dec : bytes -> res (val * bytes)) : Prop := forall b v r, dec b = Ok (v, r) -> exists c, b = c ++ r /\ item n v c.
Lemma items_cut n dec : cuts n dec -> forall k b l r, mp_items dec k b = Ok (l, r) -> exists c, b = c ++ r /\ items n l c /\ length l = k.
Proof.
  intros H. induction k as [|k IH]; intros b l r; cbn [mp_items]; [intros [= <- <-]; exists []; repeat split; constructor|].
  destruct (dec b) as [[v r1]|e] eqn:D; cbn [bind]; [|discriminate]. apply H in D as (c & -> & I).
  destruct (mp_items dec k r1) as [[l' r2]|e] eqn:R; cbn [bind]; [|discriminate]. intros [= <- <-]. apply IH in R as (c' & -> & I' & L).
  exists (c ++ c'). rewrite <- app_assoc. split; [reflexivity|]. split; [constructor; assumption|cbn; lia].
Qed.
Lemma pairs_cut n dec : cuts n dec -> forall k d b d' r, mp_pairs dec k d b = Ok (d', r) ->
  exists ps c, b = c ++ r /\ pairs n ps c /\ length ps = k /\ d' = gather ps d.
Proof.
  intros H. induction k as [|k IH]; intros d b d' r; cbn [mp_pairs]; [intros [= <- <-]; exists [], []; repeat split; constructor|].
  destruct (dec b) as [[u r1]|e] eqn:D; cbn [bind]; [|discriminate]. apply H in D as (c & -> & I). destruct (MsgPack.is_text u) eqn:S; [|discriminate].
  destruct (dec r1) as [[x r2]|e] eqn:D; cbn [bind]; [|discriminate]. apply H in D as (c2 & -> & I2).
  intros R. apply IH in R as (ps & c3 & -> & P & L & ->).
  exists ((u, x) :: ps), (c ++ c2 ++ c3). rewrite <- !app_assoc. split; [reflexivity|]. split; [constructor; try assumption; destruct u; discriminate S || exact Logic.I|]. split; [cbn; lia|reflexivity].
Qed.
Lemma pairs_collect n ps c : pairs n ps c -> collect ps (gather ps []).
Proof. intros P. apply (proj2 (proj2 all_read)) in P as (K & _). apply collect_iff; [exact K|reflexivity]. Qed.

Lemma str_cut n lim h k b v r : str_head k h -> 0 <= k -> mp_str lim k b = Ok (v, r) -> exists c, b = c ++ r /\ item n v (h ++ c).
Proof.
  intros H K. unfold mp_str, mp_raw. destruct (lim <? k); [discriminate|]. destruct (take (Z.to_nat k) b) as [[x r1]|e] eqn:T; cbn [bind]; [|discriminate].
  destruct (utf8_valid x) eqn:V; [|discriminate]. intros E; injection E as <- <-. apply string_cut in T as [-> <-]; [|exact K]. exists x. split; [reflexivity|].
  constructor; [exact H|apply is_text_iff; exact V].
Qed.
Lemma bin_cut n lim h k b v r : bin_head k h -> 0 <= k -> mp_bin lim k b = Ok (v, r) -> exists c, b = c ++ r /\ item n v (h ++ c).
Proof.
  intros H K. unfold mp_bin, mp_raw. destruct (lim <? k); [discriminate|]. destruct (take (Z.to_nat k) b) as [[x r1]|e] eqn:T; cbn [bind]; [|discriminate].
  intros E; injection E as <- <-. apply string_cut in T as [-> <-]; [|exact K]. exists x. split; [reflexivity|]. constructor; exact H.
Qed.
Lemma ext_cut n lim h k b v r : ext_head k h -> 0 <= k -> mp_ext lim k b = Ok (v, r) -> exists c, b = c ++ r /\ item n v (h ++ c).
Proof.
  intros H K. unfold mp_ext, mp_raw. destruct (take 1 b) as [[y r0]|e] eqn:T0; cbn [bind]; [|discriminate]. apply take_cut in T0 as [-> Y].
  destruct y as [|a [|? ?]]; try discriminate Y. destruct (lim <? k); [discriminate|]. destruct (take (Z.to_nat k) r0) as [[x r1]|e] eqn:T; cbn [bind]; [|discriminate].
  intros E; injection E as <- <-. apply string_cut in T as [-> <-]; [|exact K]. exists (a :: x). split; [reflexivity|]. constructor; exact H.
Qed.
Lemma array_cut n lim h k b v r : (forall f, n = S f -> cuts f (mp_unpack n lim)) -> array_head k h -> 0 <= k ->
  mp_nest n (mp_array (mp_unpack n lim) lim k b) = Ok (v, r) -> exists c, b = c ++ r /\ item n v (h ++ c).
Proof.
  intros C H K. destruct n as [|f]; [discriminate|]. cbn [mp_nest]. unfold mp_array. destruct (lim <? k); [discriminate|].
  destruct (mp_items _ (Z.to_nat k) b) as [[l r1]|e] eqn:T; cbn [bind]; [|discriminate]. intros E; injection E as <- <-.
  apply (items_cut f _ (C f eq_refl)) in T as (c & -> & I & L). exists c. split; [reflexivity|]. constructor; [|exact I]. replace (count l) with k; [exact H|]. unfold count; lia.
Qed.
Lemma map_cut n lim h k b v r : (forall f, n = S f -> cuts f (mp_unpack n lim)) -> map_head k h -> 0 <= k ->
  mp_nest n (mp_map (mp_unpack n lim) lim k b) = Ok (v, r) -> exists c, b = c ++ r /\ item n v (h ++ c).
Proof.
  intros C H K. destruct n as [|f]; [discriminate|]. cbn [mp_nest]. unfold mp_map. destruct (lim / 2 <? k); [discriminate|].
  destruct (mp_pairs _ (Z.to_nat k) [] b) as [[d r1]|e] eqn:T; cbn [bind]; [|discriminate]. intros E; injection E as <- <-.
  apply (pairs_cut f _ (C f eq_refl)) in T as (ps & c & -> & I & L & ->). exists c. split; [reflexivity|]. econstructor; [|exact I|eapply pairs_collect; exact I].
  replace (count ps) with k; [exact H|]. unfold count; lia.
Qed.
(** An object whose first octet announces a number or a length in the next octets. *)
Lemma sized_cut n first width b (k : Z -> bytes -> res (val * bytes)) v r :
  (let! (z, r') := take_int (Z.to_nat width) b in k z r') = Ok (v, r) -> 0 <= width ->
  (forall z h r', sized first width z h -> 0 <= z < 256 ^ width -> k z r' = Ok (v, r) -> exists c, r' = c ++ r /\ item n v (h ++ c)) ->
  exists c, b = c ++ r /\ item n v (octet first :: c).
Proof.
  intros D W G. destruct (take_int (Z.to_nat width) b) as [[z r1]|e] eqn:T; cbn [bind] in D; [|discriminate]. apply take_int_cut in T as (x & -> & X & ->).
  assert (C : count x = width) by (unfold count; lia). destruct (G (number x) (octet first :: x) r1) as (c & -> & I).
  - exists x. auto.
  - rewrite <- C. apply number_range.
  - exact D.
  - exists (x ++ c). rewrite <- app_assoc. auto.
Qed.

Lemma item_nil n v h r : item n v h -> exists c, r = c ++ r /\ item n v (h ++ c).
Proof. intros I. exists []. rewrite app_nil_r. auto. Qed.

Lemma all_cut n : forall lim, cuts n (mp_unpack (S n) lim).
Proof.
  induction n as [n IH] using lt_wf_ind. intros lim b v r. destruct b as [|a b]; [discriminate|].
  assert (IH' : forall f, n = S f -> cuts f (mp_unpack n lim)). { intros f ->. apply IH. lia. }
  clear IH. pose proof (octet_range a) as A. assert (Ea : a = octet (byte_Z a)) by (symmetry; apply byte_of_eq; reflexivity).
  enough (G : mp_unpack (S n) lim (a :: b) = Ok (v, r) -> exists c, b = c ++ r /\ item n v (octet (byte_Z a) :: c)).
  { intros D. destruct (G D) as (c & -> & I). exists (a :: c). split; [reflexivity|rewrite Ea; exact I]. }
  cbn [mp_unpack]. set (c := byte_Z a) in *. clearbody c. clear a Ea.
  destruct (Z.ltb_spec c 128). { intros [= <- <-]. exists []. split; [reflexivity|]. eapply m_positive_fixint. split; [lia|reflexivity]. }
  destruct (Z.ltb_spec c 144). { apply (map_cut n lim [octet c]); [exact IH'| |lia]. left. split; [lia|]. do 2 f_equal. lia. }
  destruct (Z.ltb_spec c 160). { apply (array_cut n lim [octet c]); [exact IH'| |lia]. left. split; [lia|]. do 2 f_equal. lia. }
  destruct (Z.ltb_spec c 192). { apply (str_cut n lim [octet c]); [|lia]. left. split; [lia|]. do 2 f_equal. lia. }
  destruct (Z.eqb_spec c 192) as [->|]. { intros [= <- <-]. exists []. split; [reflexivity|]. constructor. }
  destruct (Z.eqb_spec c 193) as [->|]; [discriminate|].
  destruct (Z.eqb_spec c 194) as [->|]. { intros [= <- <-]. exists []. split; [reflexivity|]. constructor. }
  destruct (Z.eqb_spec c 195) as [->|]. { intros [= <- <-]. exists []. split; [reflexivity|]. constructor. }
  destruct (Z.eqb_spec c 196) as [->|].
  { intros D. refine (sized_cut n 196 1 _ _ _ _ D _ _); [lia|]. intros z h r' S R. apply bin_cut; [unfold bin_head; auto|lia]. }
  destruct (Z.eqb_spec c 197) as [->|].
  { intros D. refine (sized_cut n 197 2 _ _ _ _ D _ _); [lia|]. intros z h r' S R. apply bin_cut; [unfold bin_head; auto|lia]. }
  destruct (Z.eqb_spec c 198) as [->|].
  { intros D. refine (sized_cut n 198 4 _ _ _ _ D _ _); [lia|]. intros z h r' S R. apply bin_cut; [unfold bin_head; auto|lia]. }
  destruct (Z.eqb_spec c 199) as [->|].
  { intros D. refine (sized_cut n 199 1 _ _ _ _ D _ _); [lia|]. intros z h r' S R. apply ext_cut; [unfold ext_head; auto|lia]. }
  destruct (Z.eqb_spec c 200) as [->|].
  { intros D. refine (sized_cut n 200 2 _ _ _ _ D _ _); [lia|]. intros z h r' S R. apply ext_cut; [unfold ext_head; auto|lia]. }
  destruct (Z.eqb_spec c 201) as [->|].
  { intros D. refine (sized_cut n 201 4 _ _ _ _ D _ _); [lia|]. intros z h r' S R. apply ext_cut; [unfold ext_head; auto|lia]. }
  destruct (Z.eqb_spec c 202) as [->|].
  { intros D. refine (sized_cut n 202 4 _ (fun z r' => Ok (VFloat (widen 8 23 z), r')) _ _ D _ _); [lia|]. intros z h r' S R E. injection E as <- <-.
    apply item_nil. eapply m_float32; [exact S|]. apply single_is_float. exact R. }
  destruct (Z.eqb_spec c 203) as [->|].
  { intros D. refine (sized_cut n 203 8 _ (fun z r' => Ok (VFloat z, r')) _ _ D _ _); [lia|]. intros z h r' S R E. injection E as <- <-.
    apply item_nil. eapply m_float64; exact S. }
  destruct (Z.eqb_spec c 204) as [->|].
  { intros D. refine (sized_cut n 204 1 _ (fun z r' => Ok (VInt z, r')) _ _ D _ _); [lia|]. intros z h r' S R E. injection E as <- <-.
    apply item_nil. eapply m_uint; [|exact S]. cbn; auto. }
  destruct (Z.eqb_spec c 205) as [->|].
  { intros D. refine (sized_cut n 205 2 _ (fun z r' => Ok (VInt z, r')) _ _ D _ _); [lia|]. intros z h r' S R E. injection E as <- <-.
    apply item_nil. eapply m_uint; [|exact S]. cbn; auto. }
  destruct (Z.eqb_spec c 206) as [->|].
  { intros D. refine (sized_cut n 206 4 _ (fun z r' => Ok (VInt z, r')) _ _ D _ _); [lia|]. intros z h r' S R E. injection E as <- <-.
    apply item_nil. eapply m_uint; [|exact S]. cbn; auto. }
  destruct (Z.eqb_spec c 207) as [->|].
  { intros D. refine (sized_cut n 207 8 _ (fun z r' => Ok (VInt z, r')) _ _ D _ _); [lia|]. intros z h r' S R E. injection E as <- <-.
    apply item_nil. eapply m_uint; [|exact S]. cbn; auto. }
  destruct (Z.eqb_spec c 208) as [->|].
  { intros D. refine (sized_cut n 208 1 _ (fun z r' => Ok (VInt (signed 1 z), r')) _ _ D _ _); [lia|]. intros z h r' S R E. inversion E; subst.
    apply item_nil. rewrite signed_complement by lia. eapply m_int; [|exact S]. cbn; auto. }
  destruct (Z.eqb_spec c 209) as [->|].
  { intros D. refine (sized_cut n 209 2 _ (fun z r' => Ok (VInt (signed 2 z), r')) _ _ D _ _); [lia|]. intros z h r' S R E. inversion E; subst.
    apply item_nil. rewrite signed_complement by lia. eapply m_int; [|exact S]. cbn; auto. }
  destruct (Z.eqb_spec c 210) as [->|].
  { intros D. refine (sized_cut n 210 4 _ (fun z r' => Ok (VInt (signed 4 z), r')) _ _ D _ _); [lia|]. intros z h r' S R E. inversion E; subst.
    apply item_nil. rewrite signed_complement by lia. eapply m_int; [|exact S]. cbn; auto. }
  destruct (Z.eqb_spec c 211) as [->|].
  { intros D. refine (sized_cut n 211 8 _ (fun z r' => Ok (VInt (signed 8 z), r')) _ _ D _ _); [lia|]. intros z h r' S R E. inversion E; subst.
    apply item_nil. rewrite signed_complement by lia. eapply m_int; [|exact S]. cbn; auto. }
  destruct (Z.eqb_spec c 212) as [->|]. { apply (ext_cut n lim [octet 212]); [|lia]. do 3 right. cbn [In]. repeat (first [left; reflexivity|right]). }
  destruct (Z.eqb_spec c 213) as [->|]. { apply (ext_cut n lim [octet 213]); [|lia]. do 3 right. cbn [In]. repeat (first [left; reflexivity|right]). }
  destruct (Z.eqb_spec c 214) as [->|]. { apply (ext_cut n lim [octet 214]); [|lia]. do 3 right. cbn [In]. repeat (first [left; reflexivity|right]). }
  destruct (Z.eqb_spec c 215) as [->|]. { apply (ext_cut n lim [octet 215]); [|lia]. do 3 right. cbn [In]. repeat (first [left; reflexivity|right]). }
  destruct (Z.eqb_spec c 216) as [->|]. { apply (ext_cut n lim [octet 216]); [|lia]. do 3 right. cbn [In]. repeat (first [left; reflexivity|right]). }
  destruct (Z.eqb_spec c 217) as [->|].
  { intros D. refine (sized_cut n 217 1 _ _ _ _ D _ _); [lia|]. intros z h r' S R. apply str_cut; [unfold str_head; auto|lia]. }
  destruct (Z.eqb_spec c 218) as [->|].
  { intros D. refine (sized_cut n 218 2 _ _ _ _ D _ _); [lia|]. intros z h r' S R. apply str_cut; [unfold str_head; auto|lia]. }
  destruct (Z.eqb_spec c 219) as [->|].
  { intros D. refine (sized_cut n 219 4 _ _ _ _ D _ _); [lia|]. intros z h r' S R. apply str_cut; [unfold str_head; auto|lia]. }
  destruct (Z.eqb_spec c 220) as [->|].
  { intros D. refine (sized_cut n 220 2 _ (fun z r' => mp_nest n (mp_array (mp_unpack n lim) lim z r')) _ _ D _ _); [lia|]. intros z h r' S R. apply array_cut; [exact IH'|unfold array_head; auto|lia]. }
  destruct (Z.eqb_spec c 221) as [->|].
  { intros D. refine (sized_cut n 221 4 _ (fun z r' => mp_nest n (mp_array (mp_unpack n lim) lim z r')) _ _ D _ _); [lia|]. intros z h r' S R. apply array_cut; [exact IH'|unfold array_head; auto|lia]. }
  destruct (Z.eqb_spec c 222) as [->|].
  { intros D. refine (sized_cut n 222 2 _ (fun z r' => mp_nest n (mp_map (mp_unpack n lim) lim z r')) _ _ D _ _); [lia|]. intros z h r' S R. apply map_cut; [exact IH'|unfold map_head; auto|lia]. }
  destruct (Z.eqb_spec c 223) as [->|].
  { intros D. refine (sized_cut n 223 4 _ (fun z r' => mp_nest n (mp_map (mp_unpack n lim) lim z r')) _ _ D _ _); [lia|]. intros z h r' S R. apply map_cut; [exact IH'|unfold map_head; auto|lia]. }
  intros D. injection D as <- <-. exists []. split; [reflexivity|]. assert (E : octet c = octet (256 + (c - 256))) by (f_equal; lia). rewrite E. apply m_negative_fixint. lia.
Qed.

Lemma msgpack_exact b v : loads msgpack b = Ok v <-> item 1024 v b.
Proof.
  cbn [loads msgpack]. unfold mp_loads. split.
  - destruct (mp_unpack (S MP_STACK) (zlen b) b) as [[w [|? ?]]|[]] eqn:D; try discriminate. intros [= <-]. apply all_cut in D as (c & -> & I).
    rewrite app_nil_r. exact I.
  - intros I. destruct (proj1 all_read _ _ _ I) as (_ & _ & R). specialize (R (zlen b) [] (Z.le_refl _)). rewrite app_nil_r in R. unfold MP_STACK. rewrite R. reflexivity.
Qed.
Lemma msgpack_writes v b : msgpack_value v -> dumps msgpack v = Ok b -> item 1024 v b.
Proof. intros W D. apply msgpack_exact. destruct (msgpack_round_trip v W) as (c & E & _ & L). rewrite E in D. injection D as <-. exact L. Qed.
