(** * CborFormat: cbor2.loads reads exactly the data items of RFC 8949 (SpecCbor). *)
From Coq Require Import String Ascii List ZArith Bool Lia.
From Verif Require Import PyBase Rawsocket Encoding EncodingFacts Utf8 Utf8Facts CodecBase CodecFacts Serializer SpecCodec MsgPack Cbor CborFacts
  SpecFormat FormatFacts SpecCbor.
Import ListNotations.
Local Open Scope Z_scope.

Scheme item_mut := Induction for item Sort Prop
  with items_mut := Induction for items Sort Prop
  with pairs_mut := Induction for pairs Sort Prop.
Combined Scheme item_all from item_mut, items_mut, pairs_mut.

Lemma initial_parts major sub : 0 <= major < 8 -> 0 <= sub < 32 -> byte_Z (initial major sub) / 32 = major /\ byte_Z (initial major sub) mod 32 = sub.
Proof.
  intros M S. unfold initial, octet. fold (byte_of (32 * major + sub)). rewrite byte_Z_of by lia.
  split; [symmetry; apply (Z.div_unique _ _ _ sub); lia|symmetry; apply (Z.mod_unique _ _ major); lia].
Qed.
Lemma initial_of a : a = initial (byte_Z a / 32) (byte_Z a mod 32).
Proof.
  unfold initial, octet. fold (byte_of (32 * (byte_Z a / 32) + byte_Z a mod 32)). rewrite <- Z.div_mod by lia. symmetry. apply byte_of_eq. reflexivity.
Qed.
Lemma octet_range a : 0 <= byte_Z a < 256.
Proof. unfold byte_Z. pose proof (N_ascii_bounded a). lia. Qed.
Lemma parts_range a : 0 <= byte_Z a / 32 < 8 /\ 0 <= byte_Z a mod 32 < 32.
Proof.
  pose proof (octet_range a). split; [split; [apply Z.div_pos; lia|apply Z.div_lt_upper_bound; lia]|apply Z.mod_pos_bound; lia].
Qed.
Lemma take_count x r n : count x = n -> take (Z.to_nat n) (x ++ r) = Ok (x, r).
Proof. unfold count. intros <-. rewrite Nat2Z.id. apply take_app. Qed.
Lemma take_int_count x r (n : nat) : length x = n -> take_int n (x ++ r) = Ok (number x, r).
Proof. intros <-. unfold take_int. rewrite take_app. cbn [bind]. rewrite number_be. reflexivity. Qed.
Lemma count_nat {A} (x : list A) n : count x = Z.of_nat n -> length x = n.
Proof. unfold count. lia. Qed.

(** ** Every data item is read. *)
Lemma head_reads major n h : head major n h -> 0 <= major < 8 ->
  exists a t, h = a :: t /\ byte_Z a / 32 = major /\ byte_Z a mod 32 <> 31 /\ 0 <= n < 2 ^ 64 /\
    forall r, cb_len (byte_Z a mod 32) (t ++ r) = Ok (Some n, r).
Proof.
  intros [m N|info b J] M.
  - exists (initial major m), []. split; [reflexivity|]. destruct (initial_parts major m) as [-> ->]; [lia|lia|]. split; [reflexivity|]. split; [lia|].
    split; [lia|]. intros r. unfold cb_len. destruct (Z.ltb_spec m 24); [reflexivity|lia].
  - exists (initial major info), b. split; [reflexivity|].
    assert (I : 24 <= info < 28). { cbn [In] in J. destruct J as [[= <- _]|[[= <- _]|[[= <- _]|[[= <- _]|[]]]]]; lia. }
    destruct (initial_parts major info) as [-> ->]; [lia|lia|]. split; [reflexivity|]. split; [lia|].
    pose proof (number_range b) as NR. split.
    { cbn [In] in J. destruct J as [[= _ C]|[[= _ C]|[[= _ C]|[[= _ C]|[]]]]]; rewrite <- C in NR; revert NR;
        [change (256 ^ 1) with (2 ^ 8)|change (256 ^ 2) with (2 ^ 16)|change (256 ^ 4) with (2 ^ 32)|change (256 ^ 8) with (2 ^ 64)]; lia. }
    intros r. cbn [In] in J. destruct J as [[= <- C]|[[= <- C]|[[= <- C]|[[= <- C]|[]]]]]; unfold cb_len; cbn [Z.ltb Z.eqb Z.compare Pos.compare Pos.compare_cont Pos.eqb];
      rewrite take_int_count by (apply count_nat; rewrite <- C; reflexivity); reflexivity.
Qed.
Lemma break_value : byte_Z break = 255. Proof. reflexivity. Qed.
Lemma chunks_read major ok x b : chunks major ok x b -> 0 <= major < 7 -> (forall y, ok y -> major = 3 -> utf8_valid y = true) ->
  forall fuel r, (length b < fuel)%nat -> cb_chunks fuel major (b ++ break :: r) = Ok (x, r).
Proof.
  induction 1 as [|x h y b H O C IH]; intros M U [|fuel] r L; try lia.
  - reflexivity.
  - destruct (head_reads _ _ _ H ltac:(lia)) as (a & t & -> & A & A' & N & R). rewrite <- !app_assoc. cbn [app cb_chunks].
    destruct (Z.eqb_spec (byte_Z a) 255) as [E|_]; [exfalso; rewrite E in A'; apply A'; reflexivity|].
    rewrite A, Z.eqb_refl. rewrite (cb_uint_of_len _ _ _ _ (R _)). cbn [bind]. rewrite take_count by reflexivity. cbn [bind].
    replace ((major =? 3) && negb (utf8_valid x)) with false.
    2:{ destruct (Z.eqb_spec major 3) as [E|_]; [rewrite (U x O E)|]; reflexivity. }
    rewrite IH; [reflexivity|assumption|assumption|]. revert L. rewrite !app_length. cbn [length app]. rewrite ?app_length. lia.
Qed.
Lemma chunks_text x b : chunks 3 is_text x b -> is_text x.
Proof.
  induction 1 as [|x h y b H [ps X] C [qs Y]]; [exists []; constructor|]. exists (ps ++ qs). rewrite map_app.
  clear - X Y. induction X as [|p ps o os A B IH]; [exact Y|]. cbn [app]. rewrite <- app_assoc. constructor; assumption.
Qed.

Definition reads (v : val) (b : bytes) : Prop :=
  python_value v /\ (v <> Break -> exists a t, b = a :: t /\ byte_Z a <> 255) /\ (0 < length b)%nat /\
  forall f r, (length b <= f)%nat -> cb_dec f (b ++ r) = Ok (v, r).
Definition reads_items (l : list val) (b : bytes) : Prop :=
  (length l <= length b)%nat /\
  (forall f r, (length b <= f)%nat -> mp_items (cb_dec f) (length l) (b ++ r) = Ok (l, r)) /\
  (~ In Break l -> forall f k r, (length b <= f)%nat -> (length l < k)%nat -> cb_items_break (cb_dec f) k (b ++ break :: r) = Ok (l, r)).
Definition reads_pairs (ps : list (val * val)) (b : bytes) : Prop :=
  keys_ok ps /\ (length ps <= length b)%nat /\
  (forall f d r, (length b <= f)%nat -> cb_pairs (cb_dec f) (length ps) d (b ++ r) = Ok (gather ps d, r)) /\
  (forall f k d r, (length b <= f)%nat -> (length ps < k)%nat -> cb_pairs_break (cb_dec f) k d (b ++ break :: r) = Ok (gather ps d, r)).

(** An item that starts with a head. *)
Lemma reads_head major n h b v : head major n h -> 0 <= major < 8 -> python_value v ->
  (forall f sub t r, (length b <= f)%nat -> cb_len sub t = Ok (Some n, b ++ r) -> cb_item f major sub t = Ok (v, r)) ->
  reads v (h ++ b).
Proof.
  intros H M P G. destruct (head_reads _ _ _ H M) as (a & t & -> & A & A' & N & R). split; [exact P|].
  split; [intros _; exists a, (t ++ b); split; [reflexivity|intros E; rewrite E in A'; apply A'; reflexivity]|]. split; [cbn; lia|].
  intros [|f] r L; cbn [app length] in L; [lia|]. cbn [app]. rewrite cb_dec_item, A. apply G; [rewrite app_length in L; lia|].
  rewrite <- app_assoc. apply R.
Qed.
(** An item that starts with another octet. *)
Lemma reads_initial major sub b v : 0 <= major < 8 -> 0 <= sub < 32 -> (major <> 7 \/ sub <> 31) -> python_value v ->
  (forall f r, (length b <= f)%nat -> cb_item f major sub (b ++ r) = Ok (v, r)) -> reads v (initial major sub :: b).
Proof.
  intros M S X P G. destruct (initial_parts major sub M S) as [A B]. split; [exact P|].
  split; [intros _; exists (initial major sub), b; split; [reflexivity|intros E; rewrite E in A, B; cbn in A, B; lia]|]. split; [cbn; lia|].
  intros [|f] r L; cbn [length] in L; [lia|]. cbn [app]. rewrite cb_dec_item, A, B. apply G. lia.
Qed.

Lemma str_python x : is_text x -> python_value (VStr (decode_str x)).
Proof. intros T. cbn [python_value]. rewrite encode_decode_str. apply utf8_valid_str, is_text_iff, T. Qed.
Lemma cb_len_31 r : cb_len 31 r = Ok (None, r). Proof. reflexivity. Qed.
Lemma scalar_hashable k : scalar k <-> hashable k = true.
Proof. destruct k; cbn; split; auto; discriminate || contradiction. Qed.

Lemma all_read lenient :
  (forall v b, item lenient v b -> reads v b) /\ (forall l b, items lenient l b -> reads_items l b) /\ (forall ps b, pairs lenient ps b -> reads_pairs ps b).
Proof.
  apply item_all.
  - intros n h H. rewrite <- (app_nil_r h). eapply reads_head; [exact H|lia|exact I|]. intros f sub t r _ E. unfold cb_item. cbn [Z.eqb].
    rewrite (cb_uint_of_len _ _ _ _ E). reflexivity.
  - intros n h H. rewrite <- (app_nil_r h). eapply reads_head; [exact H|lia|exact I|]. intros f sub t r _ E. unfold cb_item. cbn [Z.eqb].
    rewrite (cb_uint_of_len _ _ _ _ E). cbn [bind]. replace (- n - 1) with (- 1 - n) by lia. reflexivity.
  - intros x h H. eapply reads_head; [exact H|lia|exact I|]. intros f sub t r _ E. unfold cb_item. cbn [Z.eqb Pos.eqb]. unfold cb_string. rewrite E. cbn [bind].
    rewrite take_count by reflexivity. reflexivity.
  - intros x b C. apply reads_initial; [lia|lia|lia|exact I|]. intros f r _. unfold cb_item. cbn [Z.eqb Pos.eqb]. unfold cb_string. rewrite cb_len_31. cbn [bind].
    rewrite <- app_assoc. cbn [app]. rewrite (chunks_read _ _ _ _ C); [reflexivity|lia|intros; lia|rewrite app_length; lia].
  - intros x h H T. eapply reads_head; [exact H|lia|apply str_python; exact T|]. intros f sub t r _ E. unfold cb_item. cbn [Z.eqb Pos.eqb]. unfold cb_string. rewrite E. cbn [bind].
    rewrite take_count by reflexivity. cbn [bind]. apply is_text_iff in T. rewrite T. reflexivity.
  - intros x b C. assert (T := chunks_text _ _ C). apply reads_initial; [lia|lia|lia|apply str_python; exact T|]. intros f r _. unfold cb_item. cbn [Z.eqb Pos.eqb]. unfold cb_string. rewrite cb_len_31. cbn [bind].
    rewrite <- app_assoc. cbn [app]. rewrite (chunks_read _ _ _ _ C); [|lia|intros y Y _; apply is_text_iff; exact Y|rewrite app_length; lia].
    cbn [bind]. apply is_text_iff in T. rewrite T. reflexivity.
  - intros l h b H _ (Ll & Rl & _). eapply reads_head; [exact H|lia|exact I|]. intros f sub t r L E. unfold cb_item. cbn [Z.eqb Pos.eqb]. rewrite E. cbn [bind].
    unfold count. rewrite Nat2Z.id. rewrite Rl by lia. reflexivity.
  - intros l b _ (Ll & _ & Rl) N. apply reads_initial; [lia|lia|lia|exact I|]. intros f r L. rewrite app_length in L. cbn [length] in L. unfold cb_item. cbn [Z.eqb Pos.eqb]. rewrite cb_len_31. cbn [bind].
    rewrite <- app_assoc. cbn [app]. rewrite Rl; [reflexivity|exact N|lia|rewrite app_length; lia].
  - intros ps d h b H _ (K & Ll & Rl & _) C. apply (collect_iff ps d K) in C as <-. eapply reads_head; [exact H|lia|exact I|]. intros f sub t r L E. unfold cb_item. cbn [Z.eqb Pos.eqb]. rewrite E. cbn [bind].
    unfold count. rewrite Nat2Z.id. rewrite Rl by lia. reflexivity.
  - intros ps d b _ (K & Ll & _ & Rl) C. apply (collect_iff ps d K) in C as <-. apply reads_initial; [lia|lia|lia|exact I|]. intros f r L. rewrite app_length in L. cbn [length] in L. unfold cb_item. cbn [Z.eqb Pos.eqb]. rewrite cb_len_31. cbn [bind].
    rewrite <- app_assoc. cbn [app]. rewrite Rl; [reflexivity|lia|rewrite app_length; lia].
  - intros x h b H _ (_ & _ & _ & R) N. eapply reads_head; [exact H|lia|exact I|]. intros f sub t r L E. unfold cb_item. cbn [Z.eqb Pos.eqb].
    rewrite (cb_uint_of_len _ _ _ _ E). cbn [bind]. cbn [Z.eqb Pos.eqb]. rewrite R by exact L. unfold cb_big. cbn [bind]. destruct x as [|a x]; [contradiction|].
    rewrite number_be. reflexivity.
  - intros x h b H _ (_ & _ & _ & R) N. eapply reads_head; [exact H|lia|exact I|]. intros f sub t r L E. unfold cb_item. cbn [Z.eqb Pos.eqb].
    rewrite (cb_uint_of_len _ _ _ _ E). cbn [bind]. cbn [Z.eqb Pos.eqb]. rewrite R by exact L. unfold cb_big. cbn [bind]. destruct x as [|a x]; [contradiction|].
    rewrite number_be. match goal with |- Ok (VInt ?p, _) = Ok (VInt ?q, _) => replace p with q by lia end. reflexivity.
  - intros n N. apply reads_initial; [lia|lia|lia|exact I|]. intros f r _. unfold cb_item. cbn [Z.eqb Pos.eqb app]. unfold cb_special. destruct (Z.ltb_spec n 20); [reflexivity|lia].
  - intros a _. apply reads_initial; [lia|lia|lia|exact I|]. intros f r _. reflexivity.
  - apply reads_initial; [lia|lia|lia|exact I|]. intros f r _. reflexivity.
  - apply reads_initial; [lia|lia|lia|exact I|]. intros f r _. reflexivity.
  - apply reads_initial; [lia|lia|lia|exact I|]. intros f r _. reflexivity.
  - apply reads_initial; [lia|lia|lia|exact I|]. intros f r _. reflexivity.
  - intros b f C F. apply reads_initial; [lia|lia|lia|apply F|]. intros g r _. unfold cb_item. cbn [Z.eqb Pos.eqb]. unfold cb_special. cbn [Z.ltb Z.eqb Z.compare Pos.compare Pos.compare_cont Pos.eqb].
    rewrite take_int_count by (apply count_nat; rewrite C; reflexivity). cbn [bind]. do 3 f_equal.
    eapply is_float_unique; [apply half_is_float|exact F]. pose proof (number_range b) as NR. rewrite C in NR. exact NR.
  - intros b f C F. apply reads_initial; [lia|lia|lia|apply F|]. intros g r _. unfold cb_item. cbn [Z.eqb Pos.eqb]. unfold cb_special. cbn [Z.ltb Z.eqb Z.compare Pos.compare Pos.compare_cont Pos.eqb].
    rewrite take_int_count by (apply count_nat; rewrite C; reflexivity). cbn [bind]. do 3 f_equal.
    eapply is_float_unique; [apply single_is_float|exact F]. pose proof (number_range b) as NR. rewrite C in NR. exact NR.
  - intros b C. pose proof (number_range b) as NR. rewrite C in NR. apply reads_initial; [lia|lia|lia|exact NR|]. intros g r _. unfold cb_item. cbn [Z.eqb Pos.eqb]. unfold cb_special. cbn [Z.ltb Z.eqb Z.compare Pos.compare Pos.compare_cont Pos.eqb].
    rewrite take_int_count by (apply count_nat; rewrite C; reflexivity). reflexivity.
  - intros _. split; [exact I|]. split; [intros N; contradiction N; reflexivity|]. split; [cbn; lia|]. intros [|f] r L; [cbn in L; lia|]. reflexivity.
  - split; [cbn; lia|]. split; [reflexivity|]. intros _ f [|k] r _ L; [lia|]. reflexivity.
  - intros v l b c _ (Pv & Fv & Nv & Rv) _ (Ll & Rl & Ol). split; [cbn [length]; rewrite app_length; lia|]. split.
    + intros f r L. rewrite app_length in L. cbn [length mp_items]. rewrite <- app_assoc, Rv by lia. cbn [bind]. rewrite Rl by lia. reflexivity.
    + intros N f [|k] r L K; [lia|]. rewrite app_length in L. cbn [length] in K. destruct Fv as (a & t & -> & A); [intros ->; apply N; left; reflexivity|].
      rewrite <- app_assoc. cbn [app cb_items_break]. destruct (Z.eqb_spec (byte_Z a) 255); [contradiction|].
      specialize (Rv f (c ++ break :: r) ltac:(lia)). cbn [app] in Rv. rewrite Rv. cbn [bind]. rewrite Ol; [reflexivity| |lia|lia]. intros J; apply N; right; exact J.
  - split; [constructor|]. split; [cbn; lia|]. split; [reflexivity|]. intros f [|k] d r _ L; [lia|]. reflexivity.
  - intros k x ps b c e _ (Pk & Fk & Nk & Rk) S _ (Px & Fx & Nx & Rx) _ (Kps & Lps & Rps & Ops). apply scalar_hashable in S as S'.
    split; [constructor; assumption|]. split; [cbn [length]; rewrite !app_length; lia|]. split.
    + intros f d r L. rewrite !app_length in L. cbn [length cb_pairs]. rewrite <- !app_assoc, Rk by lia. cbn [bind]. rewrite Rx by lia. cbn [bind]. rewrite S', Rps by lia. reflexivity.
    + intros f [|n] d r L K; [lia|]. rewrite !app_length in L. cbn [length] in K. destruct Fk as (a & t & -> & A); [intros ->; exact S|].
      rewrite <- !app_assoc. cbn [app cb_pairs_break]. destruct (Z.eqb_spec (byte_Z a) 255); [contradiction|].
      specialize (Rk f (c ++ e ++ break :: r) ltac:(lia)). cbn [app] in Rk. rewrite Rk. cbn [bind]. rewrite Rx by lia. cbn [bind]. rewrite S', Ops by lia. reflexivity.
Qed.

Lemma cbor_reads lenient v b r : item lenient v b -> loads cbor (b ++ r) = Ok v.
Proof.
  intros H. destruct (proj1 (all_read lenient) v b H) as (_ & _ & _ & R). cbn [loads cbor]. unfold cb_loads, cb_loads_within.
  rewrite R by (rewrite app_length; lia). reflexivity.
Qed.

(** ** What is read is a data item. *)
Lemma take_cut n b x r : take n b = Ok (x, r) -> b = x ++ r /\ length x = n.
Proof. exact (take_inv n b x r). Qed.
Lemma take_int_cut n b z r : take_int n b = Ok (z, r) -> exists x, b = x ++ r /\ length x = n /\ z = number x.
Proof.
  unfold take_int. destruct (take n b) as [[x r1]|e] eqn:T; cbn [bind]; [|discriminate]. intros [= <- <-]. apply take_cut in T as [-> L].
  exists x. rewrite number_be. auto.
Qed.
Lemma len_cut major sub b n r : 0 <= sub < 32 -> cb_len sub b = Ok (n, r) ->
  match n with Some z => exists h, b = h ++ r /\ head major z (initial major sub :: h) | None => sub = 31 /\ r = b end.
Proof.
  intros S. unfold cb_len.
  destruct (Z.ltb_spec sub 24) as [L|L]; [intros [= <- <-]; exists []; split; [reflexivity|constructor; lia]|].
  assert (G : forall k, In (sub, Z.of_nat k) [(24, 1); (25, 2); (26, 4); (27, 8)] -> (let! (z, r0) := take_int k b in Ok (Some z, r0)) = Ok (n, r) ->
    match n with Some z => exists h, b = h ++ r /\ head major z (initial major sub :: h) | None => sub = 31 /\ r = b end).
  { intros k K. destruct (take_int k b) as [[z r1]|e] eqn:T; cbn [bind]; [|discriminate]. intros [= <- <-]. apply take_int_cut in T as (x & -> & X & ->).
    exists x. split; [reflexivity|]. constructor. unfold count. rewrite X. exact K. }
  destruct (Z.eqb_spec sub 24) as [->|]; [apply (G 1%nat); cbn; auto|]. destruct (Z.eqb_spec sub 25) as [->|]; [apply (G 2%nat); cbn; auto|].
  destruct (Z.eqb_spec sub 26) as [->|]; [apply (G 4%nat); cbn; auto|]. destruct (Z.eqb_spec sub 27) as [->|]; [apply (G 8%nat); cbn; auto|].
  destruct (Z.eqb_spec sub 31) as [->|]; [intros [= <- <-]; auto|discriminate].
Qed.
Lemma uint_cut major sub b z r : 0 <= sub < 32 -> cb_uint sub b = Ok (z, r) -> exists h, b = h ++ r /\ head major z (initial major sub :: h).
Proof.
  intros S. unfold cb_uint. destruct (cb_len sub b) as [[[n|] r1]|e] eqn:E; cbn [bind]; intros H; [injection H as <- <-|discriminate H|discriminate H].
  exact (len_cut major sub b (Some n) r1 S E).
Qed.
Lemma head_nonneg major n h : head major n h -> 0 <= n.
Proof. intros [m N|info b _]; [lia|]. apply number_range. Qed.
Lemma string_cut n b x r : 0 <= n -> take (Z.to_nat n) b = Ok (x, r) -> b = x ++ r /\ count x = n.
Proof. intros N T. apply take_cut in T as [-> L]. split; [reflexivity|]. unfold count. lia. Qed.
Lemma chunks_cut major (ok : bytes -> Prop) : (forall x, major = 3 -> utf8_valid x = true -> ok x) -> (major <> 3 -> forall x, ok x) ->
  forall fuel b x r, cb_chunks fuel major b = Ok (x, r) -> exists c, b = c ++ break :: r /\ chunks major ok x c.
Proof.
  intros O1 O2. induction fuel as [|fuel IH]; intros b x r; cbn [cb_chunks]; [discriminate|]. destruct b as [|a b]; [discriminate|].
  destruct (Z.eqb_spec (byte_Z a) 255) as [E|_].
  { intros [= <- <-]. exists []. split; [cbn [app]; f_equal; rewrite <- (byte_of_eq _ _ E); reflexivity|constructor]. }
  destruct (Z.eqb_spec (byte_Z a / 32) major) as [M|_]; [|discriminate]. destruct (parts_range a) as [PM PS].
  destruct (cb_uint (byte_Z a mod 32) b) as [[n r2]|e] eqn:U; cbn [bind]; [|discriminate]. apply (uint_cut major) in U as (h & -> & H); [|exact PS].
  destruct (take (Z.to_nat n) r2) as [[y r3]|e] eqn:T; cbn [bind]; [|discriminate]. apply string_cut in T as [-> <-]; [|eapply head_nonneg; exact H].
  destruct ((major =? 3) && negb (utf8_valid y)) eqn:V; [discriminate|].
  destruct (cb_chunks fuel major r3) as [[z r4]|e] eqn:C; cbn [bind]; [|discriminate]. intros [= <- <-]. apply IH in C as (c & -> & C).
  exists ((a :: h) ++ y ++ c). split; [cbn [app]; rewrite <- !app_assoc; reflexivity|]. constructor; [rewrite (initial_of a), M; exact H| |exact C].
  destruct (Z.eqb_spec major 3) as [E3|E3]; [|apply O2; exact E3]. apply O1; [exact E3|]. cbn in V. destruct (utf8_valid y); [reflexivity|discriminate].
Qed.

(** What [cb_dec f] does on every input, as the list and map loops need it. *)
Definition cuts (f : nat) : Prop := forall b v r, cb_dec f b = Ok (v, r) -> exists c, b = c ++ r /\ item true v c.
Lemma dec_python f b v r : cuts f -> cb_dec f b = Ok (v, r) -> python_value v.
Proof. intros H D. apply H in D as (c & _ & I). apply (proj1 (all_read true)) in I. apply I. Qed.
Lemma items_cut f : cuts f -> forall n b l r, mp_items (cb_dec f) n b = Ok (l, r) -> exists c, b = c ++ r /\ items true l c /\ length l = n.
Proof.
  intros H. induction n as [|n IH]; intros b l r; cbn [mp_items]; [intros [= <- <-]; exists []; repeat split; constructor|].
  destruct (cb_dec f b) as [[v r1]|e] eqn:D; cbn [bind]; [|discriminate]. apply H in D as (c & -> & I).
  destruct (mp_items (cb_dec f) n r1) as [[l' r2]|e] eqn:R; cbn [bind]; [|discriminate]. intros [= <- <-]. apply IH in R as (c' & -> & I' & L).
  exists (c ++ c'). rewrite <- app_assoc. split; [reflexivity|]. split; [constructor; assumption|cbn; lia].
Qed.
Lemma item_first v b : item true v b -> v = Break -> exists t, b = break :: t.
Proof. intros I. destruct I; try discriminate; intros _; exists []; reflexivity. Qed.
Lemma items_break_cut f : cuts f -> forall k b l r, cb_items_break (cb_dec f) k b = Ok (l, r) -> exists c, b = c ++ break :: r /\ items true l c /\ ~ In Break l.
Proof.
  intros H. induction k as [|k IH]; intros b l r; cbn [cb_items_break]; [discriminate|]. destruct b as [|a b]; [discriminate|].
  destruct (Z.eqb_spec (byte_Z a) 255) as [E|N].
  { intros [= <- <-]. exists []. split; [cbn [app]; f_equal; rewrite <- (byte_of_eq _ _ E); reflexivity|]. split; [constructor|intros []]. }
  destruct (cb_dec f (a :: b)) as [[v r1]|e] eqn:D; cbn [bind]; [|discriminate]. apply H in D as (c & Eb & I).
  destruct (cb_items_break (cb_dec f) k r1) as [[l' r2]|e] eqn:R; cbn [bind]; [|discriminate]. intros [= <- <-]. apply IH in R as (c' & -> & I' & NB).
  exists (c ++ c'). rewrite <- app_assoc. split; [exact Eb|]. split; [constructor; assumption|]. intros [->|J]; [|exact (NB J)].
  destruct (item_first _ _ I eq_refl) as [t ->]. injection Eb as -> _. apply N. reflexivity.
Qed.
Lemma pairs_cut f : cuts f -> forall n d b d' r, cb_pairs (cb_dec f) n d b = Ok (d', r) ->
  exists ps c, b = c ++ r /\ pairs true ps c /\ length ps = n /\ d' = gather ps d.
Proof.
  intros H. induction n as [|n IH]; intros d b d' r; cbn [cb_pairs]; [intros [= <- <-]; exists [], []; repeat split; constructor|].
  destruct (cb_dec f b) as [[k r1]|e] eqn:D; cbn [bind]; [|discriminate]. apply H in D as (c & -> & I).
  destruct (cb_dec f r1) as [[x r2]|e] eqn:D; cbn [bind]; [|discriminate]. apply H in D as (c2 & -> & I2).
  destruct (hashable k) eqn:S; [|discriminate]. apply scalar_hashable in S. intros R. apply IH in R as (ps & c3 & -> & P & L & ->).
  exists ((k, x) :: ps), (c ++ c2 ++ c3). rewrite <- !app_assoc. split; [reflexivity|]. split; [constructor; assumption|]. split; [cbn; lia|reflexivity].
Qed.
Lemma pairs_break_cut f : cuts f -> forall n d b d' r, cb_pairs_break (cb_dec f) n d b = Ok (d', r) ->
  exists ps c, b = c ++ break :: r /\ pairs true ps c /\ d' = gather ps d.
Proof.
  intros H. induction n as [|n IH]; intros d b d' r; cbn [cb_pairs_break]; [discriminate|]. destruct b as [|a b]; [discriminate|].
  destruct (Z.eqb_spec (byte_Z a) 255) as [E|N].
  { intros [= <- <-]. exists [], []. split; [cbn [app]; f_equal; rewrite <- (byte_of_eq _ _ E); reflexivity|]. split; [constructor|reflexivity]. }
  destruct (cb_dec f (a :: b)) as [[k r1]|e] eqn:D; cbn [bind]; [|discriminate]. apply H in D as (c & -> & I).
  destruct (cb_dec f r1) as [[x r2]|e] eqn:D; cbn [bind]; [|discriminate]. apply H in D as (c2 & -> & I2).
  destruct (hashable k) eqn:S; [|discriminate]. apply scalar_hashable in S. intros R. apply IH in R as (ps & c3 & -> & P & ->).
  exists ((k, x) :: ps), (c ++ c2 ++ c3). rewrite <- !app_assoc. split; [reflexivity|]. split; [constructor; assumption|reflexivity].
Qed.
Lemma pairs_collect ps c : pairs true ps c -> collect ps (gather ps []).
Proof. intros P. apply (proj2 (proj2 (all_read true))) in P as (K & _). apply collect_iff; [exact K|reflexivity]. Qed.
Lemma big_cut f (neg : bool) b v r : cuts f -> cb_big (cb_dec f b) neg = Ok (v, r) ->
  exists x c, b = c ++ r /\ item true (VBytes x) c /\ x <> [] /\ v = VInt (if neg then - 1 - number x else number x).
Proof.
  intros H. unfold cb_big. destruct (cb_dec f b) as [[w r1]|e] eqn:D; cbn [bind]; [|discriminate]. apply H in D as (c & -> & I).
  destruct w as [| | | | |x| | |]; try discriminate. destruct x as [|a x]; [discriminate|]. intros [= <- <-].
  exists (a :: x), c. split; [reflexivity|]. split; [exact I|]. split; [discriminate|]. rewrite number_be. f_equal. destruct neg; lia.
Qed.

Lemma special_cut sub b v r : 0 <= sub < 32 -> cb_special sub b = Ok (v, r) -> exists c, b = c ++ r /\ item true v (initial 7 sub :: c).
Proof.
  intros S. unfold cb_special.
  destruct (Z.ltb_spec sub 20) as [L|L]; [intros [= <- <-]; exists []; split; [reflexivity|constructor; lia]|].
  destruct (Z.eqb_spec sub 20) as [->|]; [intros [= <- <-]; exists []; split; [reflexivity|constructor]|].
  destruct (Z.eqb_spec sub 21) as [->|]; [intros [= <- <-]; exists []; split; [reflexivity|constructor]|].
  destruct (Z.eqb_spec sub 22) as [->|]; [intros [= <- <-]; exists []; split; [reflexivity|constructor]|].
  destruct (Z.eqb_spec sub 23) as [->|]; [intros [= <- <-]; exists []; split; [reflexivity|constructor]|].
  destruct (Z.eqb_spec sub 24) as [->|].
  { destruct (take 1 b) as [[x r1]|e] eqn:T; cbn [bind]; [|discriminate]. intros [= <- <-]. apply take_cut in T as [-> X].
    destruct x as [|a [|? ?]]; try discriminate X. exists [a]. split; [reflexivity|]. constructor. right; reflexivity. }
  destruct (Z.eqb_spec sub 25) as [->|].
  { destruct (take_int 2 b) as [[z r1]|e] eqn:T; cbn [bind]; [|discriminate]. intros H. injection H as <- <-. apply take_int_cut in T as (x & -> & X & ->).
    assert (C : count x = 2) by (unfold count; rewrite X; reflexivity). pose proof (number_range x) as NR. rewrite C in NR.
    exists x. split; [reflexivity|]. constructor; [exact C|]. apply half_is_float. exact NR. }
  destruct (Z.eqb_spec sub 26) as [->|].
  { destruct (take_int 4 b) as [[z r1]|e] eqn:T; cbn [bind]; [|discriminate]. intros H. injection H as <- <-. apply take_int_cut in T as (x & -> & X & ->).
    assert (C : count x = 4) by (unfold count; rewrite X; reflexivity). pose proof (number_range x) as NR. rewrite C in NR.
    exists x. split; [reflexivity|]. constructor; [exact C|]. apply single_is_float. exact NR. }
  destruct (Z.eqb_spec sub 27) as [->|].
  { destruct (take_int 8 b) as [[z r1]|e] eqn:T; cbn [bind]; [|discriminate]. intros H. injection H as <- <-. apply take_int_cut in T as (x & -> & X & ->).
    exists x. split; [reflexivity|]. constructor. unfold count. rewrite X. reflexivity. }
  destruct (Z.eqb_spec sub 31) as [->|]; [|discriminate]. intros [= <- <-]. exists []. split; [reflexivity|]. constructor. reflexivity.
Qed.

Lemma all_cut f : cuts f.
Proof.
  induction f as [|f IH]; intros b v r; [discriminate|]. destruct b as [|a b]; [discriminate|]. rewrite cb_dec_item. destruct (parts_range a) as [PM PS].
  enough (G : forall sub, 0 <= sub < 32 -> forall major, 0 <= major < 8 -> cb_item f major sub b = Ok (v, r) -> exists c, b = c ++ r /\ item true v (initial major sub :: c)).
  { intros D. apply G in D as (c & -> & I); [|exact PS|exact PM]. exists (a :: c). split; [reflexivity|]. rewrite (initial_of a). exact I. }
  clear a PM PS. intros sub PS major PM. unfold cb_item.
  destruct (Z.eqb_spec major 0) as [->|M0].
  { destruct (cb_uint sub b) as [[n r1]|e] eqn:U; cbn [bind]; [|discriminate]. intros H. injection H as <- <-. apply (uint_cut 0) in U as (h & -> & U); [|exact PS].
    exists h. split; [reflexivity|]. constructor. exact U. }
  destruct (Z.eqb_spec major 1) as [->|M1].
  { destruct (cb_uint sub b) as [[n r1]|e] eqn:U; cbn [bind]; [|discriminate]. intros H. injection H as <- <-. apply (uint_cut 1) in U as (h & -> & U); [|exact PS].
    exists h. split; [reflexivity|]. replace (- n - 1) with (- 1 - n) by lia. exact (c_negative true n _ U). }
  destruct (Z.eqb_spec major 2) as [->|M2].
  { unfold cb_string. destruct (cb_len sub b) as [[n r1]|e] eqn:E; cbn [bind]; [|discriminate]. apply (len_cut 2) in E; [|exact PS]. destruct n as [n|].
    - destruct E as (h & -> & E). destruct (take (Z.to_nat n) r1) as [[x r2]|e] eqn:T; cbn [bind]; [|discriminate]. intros [= <- <-].
      apply string_cut in T as [-> <-]; [|eapply head_nonneg; exact E]. exists (h ++ x). rewrite <- app_assoc. split; [reflexivity|].
      exact (c_byte_string true x _ E).
    - destruct E as [-> ->]. destruct (cb_chunks _ 2 b) as [[x r2]|e] eqn:C; cbn [bind]; [|discriminate]. intros [= <- <-].
      apply (chunks_cut 2 (fun _ => True)) in C as (c & -> & C); [|tauto|tauto]. exists (c ++ [break]). rewrite <- app_assoc. split; [reflexivity|].
      exact (c_byte_chunks true x _ C). }
  destruct (Z.eqb_spec major 3) as [->|M3].
  { unfold cb_string. destruct (cb_len sub b) as [[n r1]|e] eqn:E; cbn [bind]; [|discriminate]. apply (len_cut 3) in E; [|exact PS]. destruct n as [n|].
    - destruct E as (h & -> & E). destruct (take (Z.to_nat n) r1) as [[x r2]|e] eqn:T; cbn [bind]; [|discriminate].
      destruct (utf8_valid x) eqn:V; [|discriminate]. intros H. injection H as <- <-.
      apply string_cut in T as [-> <-]; [|eapply head_nonneg; exact E]. exists (h ++ x). rewrite <- app_assoc. split; [reflexivity|].
      refine (c_text_string true x _ E _). apply is_text_iff. exact V.
    - destruct E as [-> ->]. destruct (cb_chunks _ 3 b) as [[x r2]|e] eqn:C; cbn [bind]; [|discriminate].
      destruct (utf8_valid x) eqn:V; [|discriminate]. intros H. injection H as <- <-.
      apply (chunks_cut 3 is_text) in C as (c & -> & C); [|intros y _ Y; apply is_text_iff; exact Y|lia]. exists (c ++ [break]). rewrite <- app_assoc. split; [reflexivity|].
      exact (c_text_chunks true x _ C). }
  destruct (Z.eqb_spec major 4) as [->|M4].
  { destruct (cb_len sub b) as [[n r1]|e] eqn:E; cbn [bind]; [|discriminate]. apply (len_cut 4) in E; [|exact PS]. destruct n as [n|].
    - destruct E as (h & -> & E). destruct (mp_items (cb_dec f) (Z.to_nat n) r1) as [[l r2]|e] eqn:T; cbn [bind]; [|discriminate]. intros [= <- <-].
      apply (items_cut f IH) in T as (c & -> & I & L). exists (h ++ c). rewrite <- app_assoc. split; [reflexivity|].
      refine (c_array true l (initial 4 sub :: h) c _ I). pose proof (head_nonneg _ _ _ E). replace (count l) with n; [exact E|]. unfold count. lia.
    - destruct E as [-> ->]. destruct (cb_items_break (cb_dec f) _ b) as [[l r2]|e] eqn:C; cbn [bind]; [|discriminate]. intros [= <- <-].
      apply (items_break_cut f IH) in C as (c & -> & C & N). exists (c ++ [break]). rewrite <- app_assoc. split; [reflexivity|].
      exact (c_open_array true l _ C N). }
  destruct (Z.eqb_spec major 5) as [->|M5].
  { destruct (cb_len sub b) as [[n r1]|e] eqn:E; cbn [bind]; [|discriminate]. apply (len_cut 5) in E; [|exact PS]. destruct n as [n|].
    - destruct E as (h & -> & E). destruct (cb_pairs (cb_dec f) (Z.to_nat n) [] r1) as [[d r2]|e] eqn:T; cbn [bind]; [|discriminate]. intros [= <- <-].
      apply (pairs_cut f IH) in T as (ps & c & -> & I & L & ->). exists (h ++ c). rewrite <- app_assoc. split; [reflexivity|].
      refine (c_map true ps _ (initial 5 sub :: h) c _ I (pairs_collect _ _ I)). pose proof (head_nonneg _ _ _ E). replace (count ps) with n; [exact E|]. unfold count. lia.
    - destruct E as [-> ->]. destruct (cb_pairs_break (cb_dec f) _ [] b) as [[d r2]|e] eqn:C; cbn [bind]; [|discriminate]. intros [= <- <-].
      apply (pairs_break_cut f IH) in C as (ps & c & -> & C & ->). exists (c ++ [break]). rewrite <- app_assoc. split; [reflexivity|].
      exact (c_open_map true ps _ _ C (pairs_collect _ _ C)). }
  destruct (Z.eqb_spec major 6) as [->|M6].
  { destruct (cb_uint sub b) as [[n r1]|e] eqn:U; cbn [bind]; [|discriminate]. apply (uint_cut 6) in U as (h & -> & U); [|exact PS].
    destruct (Z.eqb_spec n 2) as [->|].
    { intros D. apply (big_cut f _ _ _ _ IH) in D as (x & c & -> & I & N & ->). exists (h ++ c). rewrite <- app_assoc. split; [reflexivity|].
      exact (c_bignum true x _ c U I N). }
    destruct (Z.eqb_spec n 3) as [->|]; [|discriminate].
    intros D. apply (big_cut f _ _ _ _ IH) in D as (x & c & -> & I & N & ->). exists (h ++ c). rewrite <- app_assoc. split; [reflexivity|].
    exact (c_negative_bignum true x _ c U I N). }
  replace major with 7 by lia. apply special_cut. exact PS.
Qed.

Lemma cbor_exact b v : loads cbor b = Ok v <-> exists c r, b = c ++ r /\ item true v c.
Proof.
  split; [|intros (c & r & -> & I); eapply cbor_reads; exact I]. cbn [loads cbor]. unfold cb_loads, cb_loads_within.
  destruct (cb_dec _ b) as [[w r]|e] eqn:D; cbn [bind]; [|discriminate]. intros [= <-]. apply all_cut in D as (c & -> & I). exists c, r. auto.
Qed.

(** ** What is written is a data item. *)
Lemma bytes_strict x b : item true (VBytes x) b -> item false (VBytes x) b.
Proof. intros I. inversion I; subst; constructor; assumption. Qed.
Lemma leaf_strict v b : item true v b -> match v with VList _ | VDict _ | VOther _ _ => False | _ => True end -> item false v b.
Proof.
  intros I L. destruct I; try contradiction L; try (econstructor; eassumption).
  - eapply c_bignum; [eassumption|apply bytes_strict; eassumption|assumption].
  - eapply c_negative_bignum; [eassumption|apply bytes_strict; eassumption|assumption].
Qed.
Lemma head_writes major n : 0 <= major < 8 -> 0 <= n < 2 ^ 64 -> head major n (cb_head major n).
Proof.
  intros M N. destruct (cb_head_dec major n M N) as (a & h & -> & A & L). specialize (L []). rewrite app_nil_r in L.
  apply (len_cut major) in L as (h' & E & H); [|apply parts_range]. rewrite app_nil_r in E. subst h'. rewrite (initial_of a), A. exact H.
Qed.
Definition written (v : val) : Prop := exists b, cb_enc v = Ok b /\ item false v b.
Lemma leaf_written v : cbor_value v -> match v with VList _ | VDict _ | VOther _ _ => False | _ => True end -> written v.
Proof.
  intros W L. destruct (cb_good_all v W) as (b & E & _ & R). exists b. split; [exact E|]. specialize (R _ [] (Nat.lt_succ_diag_r _)).
  rewrite app_nil_r in R. apply all_cut in R as (c & Eb & I). rewrite app_nil_r in Eb. subst c. apply leaf_strict; assumption.
Qed.
Lemma items_written l : Forall written l -> exists b, cb_items_enc l = Ok b /\ items false l b.
Proof.
  induction 1 as [|x l (b & E & I) _ (c & E' & I')]; [exists []; split; [reflexivity|constructor]|]. exists (b ++ c). cbn [cb_items_enc]. fold (cb_items_enc l).
  rewrite E, E'. split; [reflexivity|constructor; assumption].
Qed.
Lemma pairs_written d : Forall (fun kv => written (fst kv) /\ written (snd kv)) d -> Forall scalar_key (map fst d) -> exists b, cb_pairs_enc d = Ok b /\ pairs false d b.
Proof.
  induction 1 as [|[k x] d [(b & E & I) (c & E' & I')] _ IH]; intros S; [exists []; split; [reflexivity|constructor]|]. inversion S as [|? ? Sk Sd]; subst.
  destruct (IH Sd) as (e & E2 & I2). cbn [fst snd] in *. exists (b ++ c ++ e). cbn [cb_pairs_enc]. fold (cb_pairs_enc d).
  rewrite E, E', E2. split; [reflexivity|constructor; assumption].
Qed.
Lemma distinct_gather d e : distinct_keys (map fst (e ++ d)) -> gather d e = e ++ d.
Proof.
  revert e. induction d as [|[k x] d IH]; intros e D; [rewrite app_nil_r; reflexivity|]. unfold gather in *. cbn [fold_left fst snd].
  rewrite CodecFacts.vset_new; [|rewrite map_app in D; exact (distinct_mid _ _ _ D)].
  rewrite IH; [rewrite <- app_assoc; reflexivity|]. rewrite <- app_assoc. exact D.
Qed.
Lemma all_written v : cbor_value v -> written v.
Proof.
  unfold cbor_value. induction v as [|b|z|f|s|b|t b|l IH|d IH] using val_nested; intros W; try (apply leaf_written; [exact W|exact Logic.I]);
    pose proof (everywhere_here _ _ W) as [Wp Wh].
  - contradiction.
  - apply everywhere_list in W as [_ W]. destruct (items_written l) as (b & E & I); [rewrite Forall_forall in *; auto|].
    unfold written. cbn [cb_enc]. fold (cb_items_enc l). rewrite E. eexists. split; [reflexivity|]. constructor; [|exact I]. apply head_writes; [lia|]. unfold count, zlen. split; [apply Nat2Z.is_nonneg|assumption].
  - apply everywhere_dict in W as [_ W]. destruct Wh as (WL & WN & WT).
    destruct (pairs_written d) as (b & E & I); [rewrite Forall_forall in *; intros kv J; specialize (W kv J); specialize (IH kv J); tauto|exact WT|].
    unfold written. cbn [cb_enc]. fold (cb_pairs_enc d). rewrite E. eexists. split; [reflexivity|]. econstructor; [|exact I|].
    + apply head_writes; [lia|]. unfold count, zlen. split; [apply Nat2Z.is_nonneg|assumption].
    + apply collect_iff; [unfold keys_ok; rewrite Forall_forall in *; intros kv J; apply (everywhere_here _ _ (proj1 (W kv J)))|]. apply (distinct_gather d []). exact WN.
Qed.
Lemma cbor_writes v b : cbor_value v -> dumps cbor v = Ok b -> item false v b.
Proof. intros W D. destruct (all_written v W) as (c & E & I). cbn [dumps cbor] in D. rewrite E in D. injection D as <-. exact I. Qed.
