(** * MsgPackFacts: the MsgPack decoder inverts the encoder. *)
From Coq Require Import String Ascii List ZArith Bool Lia.
From Verif Require Import PyBase DictFacts Rawsocket BitFacts Encoding EncodingFacts Utf8 Utf8Facts CodecBase Serializer SerializerFacts
  MsgPack SpecCodec CodecFacts.
Import ListNotations.
Local Open Scope Z_scope.

Definition mp_items_enc (n : Z) (l : list val) : res bytes :=
  (fix items l := match l with [] => Ok [] | x :: l' => cat (mp_pack n x) (items l') end) l.
Definition mp_pairs_enc (n : Z) (d : dict) : res bytes :=
  (fix pairs d := match d with
                  | [] => Ok []
                  | (k, x) :: d' => cat (mp_pack n k) (cat (mp_pack n x) (pairs d'))
                  end) d.

Lemma pow2 n : 256 ^ Z.of_nat n = 2 ^ (8 * Z.of_nat n).
Proof. change 256 with (2 ^ 8). rewrite <- Z.pow_mul_r by lia. reflexivity. Qed.

Lemma take_int_be' n z r : 0 <= z < 2 ^ (8 * Z.of_nat n) -> take_int n (to_be n z ++ r) = Ok (z, r).
Proof. intros H. apply take_int_be. rewrite pow2. exact H. Qed.

Ltac tests :=
  repeat match goal with
  | |- context [?a <? ?b] => destruct (Z.ltb_spec a b); try lia
  | |- context [?a <=? ?b] => destruct (Z.leb_spec a b); try lia
  | |- context [?a =? ?b] => destruct (Z.eqb_spec a b); try lia
  end.

Lemma signed_neg n z : - 2 ^ (8 * Z.of_nat n - 1) <= z < 0 -> (0 < n)%nat -> signed n (2 ^ (8 * Z.of_nat n) + z) = z.
Proof.
  intros H N. unfold signed. assert (E : 2 ^ (8 * Z.of_nat n) = 2 * 2 ^ (8 * Z.of_nat n - 1)).
  { rewrite <- Z.pow_succ_r by lia. f_equal. lia. }
  destruct (Z.ltb_spec (2 ^ (8 * Z.of_nat n) + z) (2 ^ (8 * Z.of_nat n - 1))); lia.
Qed.

Lemma signed_range n z : - 2 ^ (8 * Z.of_nat n - 1) <= z < 0 -> (0 < n)%nat ->
  0 <= 2 ^ (8 * Z.of_nat n) + z < 2 ^ (8 * Z.of_nat n).
Proof.
  intros H N. assert (E : 2 ^ (8 * Z.of_nat n) = 2 * 2 ^ (8 * Z.of_nat n - 1)).
  { rewrite <- Z.pow_succ_r by lia. f_equal. lia. }
  lia.
Qed.

Lemma mp_int_dec z fuel lim r : - 2 ^ 63 <= z < 2 ^ 64 ->
  exists b, mp_int z = Ok b /\ b <> [] /\ mp_unpack (S fuel) lim (b ++ r) = Ok (VInt z, r).
Proof.
  intros H. unfold mp_int.
  destruct (Z.leb_spec 0 z).
  - destruct (Z.ltb_spec z 128).
    { eexists. split; [reflexivity|]. split; [discriminate|]. cbn [app mp_unpack]. rewrite byte_Z_of by lia.
      destruct (Z.ltb_spec z 128); [reflexivity|lia]. }
    assert (G : forall (c : Z) (n : nat), 0 <= z < 2 ^ (8 * Z.of_nat n) -> c = 204 /\ n = 1%nat \/ c = 205 /\ n = 2%nat \/ c = 206 /\ n = 4%nat \/ c = 207 /\ n = 8%nat ->
      mp_unpack (S fuel) lim ((byte_of c :: to_be n z) ++ r) = Ok (VInt z, r)).
    { intros c n Hz Hc. cbn [app mp_unpack].
      destruct Hc as [[-> ->]|[[-> ->]|[[-> ->]|[-> ->]]]]; rewrite byte_Z_of by lia; cbn -[take_int to_be];
        rewrite take_int_be' by exact Hz; reflexivity. }
    destruct (Z.ltb_spec z (2 ^ 8)). { eexists; split; [reflexivity|split; [discriminate|]]. apply G; [|auto 6]. cbn; lia. }
    destruct (Z.ltb_spec z (2 ^ 16)). { eexists; split; [reflexivity|split; [discriminate|]]. apply G; [|auto 6]. cbn; lia. }
    destruct (Z.ltb_spec z (2 ^ 32)). { eexists; split; [reflexivity|split; [discriminate|]]. apply G; [|auto 6]. cbn; lia. }
    destruct (Z.ltb_spec z (2 ^ 64)). { eexists; split; [reflexivity|split; [discriminate|]]. apply G; [|auto 6]. cbn; lia. }
    lia.
  - destruct (Z.leb_spec (-32) z).
    { eexists. split; [reflexivity|]. split; [discriminate|]. cbn [app mp_unpack]. rewrite byte_Z_of by lia.
      tests. do 3 f_equal. lia. }
    assert (G : forall (c : Z) (n : nat), - 2 ^ (8 * Z.of_nat n - 1) <= z < 0 -> c = 208 /\ n = 1%nat \/ c = 209 /\ n = 2%nat \/ c = 210 /\ n = 4%nat \/ c = 211 /\ n = 8%nat ->
      mp_unpack (S fuel) lim ((byte_of c :: to_be n (2 ^ (8 * Z.of_nat n) + z)) ++ r) = Ok (VInt z, r)).
    { intros c n Hz Hc. cbn [app mp_unpack].
      destruct Hc as [[-> ->]|[[-> ->]|[[-> ->]|[-> ->]]]]; rewrite byte_Z_of by lia; cbn -[take_int to_be signed Z.pow Z.add Z.mul Z.of_nat];
        (rewrite take_int_be' by (apply signed_range; [exact Hz|lia])); cbn [bind]; rewrite signed_neg by (try exact Hz; lia); reflexivity. }
    destruct (Z.leb_spec (- 2 ^ 7) z). { eexists; split; [reflexivity|split; [discriminate|]]. apply (G 208 1%nat); [|auto 6]. cbn; lia. }
    destruct (Z.leb_spec (- 2 ^ 15) z). { eexists; split; [reflexivity|split; [discriminate|]]. apply (G 209 2%nat); [|auto 6]. cbn; lia. }
    destruct (Z.leb_spec (- 2 ^ 31) z). { eexists; split; [reflexivity|split; [discriminate|]]. apply (G 210 4%nat); [|auto 6]. cbn; lia. }
    destruct (Z.leb_spec (- 2 ^ 63) z). { eexists; split; [reflexivity|split; [discriminate|]]. apply (G 211 8%nat); [|auto 6]. cbn; lia. }
    lia.
Qed.

(** Heads: what follows the head is handed to the matching reader. *)
Lemma mp_str_head_dec n : 0 <= n < 2 ^ 32 -> exists h, mp_str_head n = Ok h /\ h <> [] /\
  forall fuel lim r, mp_unpack (S fuel) lim (h ++ r) = mp_str lim n r.
Proof.
  intros H. unfold mp_str_head.
  destruct (Z.ltb_spec n 32).
  { eexists; split; [reflexivity|split; [discriminate|]]. intros. cbn [app mp_unpack]. rewrite byte_Z_of by lia. tests. f_equal. lia. }
  destruct (Z.ltb_spec n (2 ^ 8)).
  { eexists; split; [reflexivity|split; [discriminate|]]. intros. cbn [app mp_unpack]. rewrite byte_Z_of by lia.
    cbn -[take_int to_be mp_str]. rewrite take_int_be' by (cbn; lia). reflexivity. }
  destruct (Z.ltb_spec n (2 ^ 16)).
  { eexists; split; [reflexivity|split; [discriminate|]]. intros. cbn [app mp_unpack]. rewrite byte_Z_of by lia.
    cbn -[take_int to_be mp_str]. rewrite take_int_be' by (cbn; lia). reflexivity. }
  destruct (Z.ltb_spec n (2 ^ 32)); [|lia].
  { eexists; split; [reflexivity|split; [discriminate|]]. intros. cbn [app mp_unpack]. rewrite byte_Z_of by lia.
    cbn -[take_int to_be mp_str]. rewrite take_int_be' by (cbn; lia). reflexivity. }
Qed.
Lemma mp_bin_head_dec n : 0 <= n < 2 ^ 32 -> exists h, mp_bin_head n = Ok h /\ h <> [] /\
  forall fuel lim r, mp_unpack (S fuel) lim (h ++ r) = mp_bin lim n r.
Proof.
  intros H. unfold mp_bin_head.
  destruct (Z.ltb_spec n (2 ^ 8)).
  { eexists; split; [reflexivity|split; [discriminate|]]. intros. cbn [app mp_unpack]. rewrite byte_Z_of by lia.
    cbn -[take_int to_be mp_bin]. rewrite take_int_be' by (cbn; lia). reflexivity. }
  destruct (Z.ltb_spec n (2 ^ 16)).
  { eexists; split; [reflexivity|split; [discriminate|]]. intros. cbn [app mp_unpack]. rewrite byte_Z_of by lia.
    cbn -[take_int to_be mp_bin]. rewrite take_int_be' by (cbn; lia). reflexivity. }
  destruct (Z.ltb_spec n (2 ^ 32)); [|lia].
  { eexists; split; [reflexivity|split; [discriminate|]]. intros. cbn [app mp_unpack]. rewrite byte_Z_of by lia.
    cbn -[take_int to_be mp_bin]. rewrite take_int_be' by (cbn; lia). reflexivity. }
Qed.
Lemma mp_array_head_dec n : 0 <= n < 2 ^ 32 -> exists h, mp_array_head n = Ok h /\ h <> [] /\
  forall fuel lim r, mp_unpack (S fuel) lim (h ++ r) = mp_nest fuel (mp_array (mp_unpack fuel lim) lim n r).
Proof.
  intros H. unfold mp_array_head.
  destruct (Z.ltb_spec n 16).
  { eexists; split; [reflexivity|split; [discriminate|]]. intros. cbn [app mp_unpack]. rewrite byte_Z_of by lia. tests. do 2 f_equal. lia. }
  destruct (Z.ltb_spec n (2 ^ 16)).
  { eexists; split; [reflexivity|split; [discriminate|]]. intros. cbn [app mp_unpack]. rewrite byte_Z_of by lia.
    cbn -[take_int to_be mp_array mp_nest mp_unpack]. rewrite take_int_be' by (cbn; lia). reflexivity. }
  destruct (Z.ltb_spec n (2 ^ 32)); [|lia].
  { eexists; split; [reflexivity|split; [discriminate|]]. intros. cbn [app mp_unpack]. rewrite byte_Z_of by lia.
    cbn -[take_int to_be mp_array mp_nest mp_unpack]. rewrite take_int_be' by (cbn; lia). reflexivity. }
Qed.
Lemma mp_map_head_dec n : 0 <= n < 2 ^ 32 -> exists h, mp_map_head n = Ok h /\ h <> [] /\
  forall fuel lim r, mp_unpack (S fuel) lim (h ++ r) = mp_nest fuel (mp_map (mp_unpack fuel lim) lim n r).
Proof.
  intros H. unfold mp_map_head.
  destruct (Z.ltb_spec n 16).
  { eexists; split; [reflexivity|split; [discriminate|]]. intros. cbn [app mp_unpack]. rewrite byte_Z_of by lia. tests. do 2 f_equal. lia. }
  destruct (Z.ltb_spec n (2 ^ 16)).
  { eexists; split; [reflexivity|split; [discriminate|]]. intros. cbn [app mp_unpack]. rewrite byte_Z_of by lia.
    cbn -[take_int to_be mp_map mp_nest mp_unpack]. rewrite take_int_be' by (cbn; lia). reflexivity. }
  destruct (Z.ltb_spec n (2 ^ 32)); [|lia].
  { eexists; split; [reflexivity|split; [discriminate|]]. intros. cbn [app mp_unpack]. rewrite byte_Z_of by lia.
    cbn -[take_int to_be mp_map mp_nest mp_unpack]. rewrite take_int_be' by (cbn; lia). reflexivity. }
Qed.

Lemma mp_raw_app b lim r : zlen b <= lim -> mp_raw lim (zlen b) (b ++ r) = Ok (b, r).
Proof.
  intros H. unfold mp_raw. destruct (Z.ltb_spec lim (zlen b)); [lia|]. unfold zlen. rewrite Nat2Z.id. apply take_app.
Qed.

Lemma encode_str_length s : length (encode_str s) = String.length s.
Proof. unfold encode_str. induction s; cbn; congruence. Qed.

Definition mp_good (v : val) : Prop := forall nest, (Z.of_nat (depth v) <= nest) ->
  exists b, mp_pack nest v = Ok b /\ (depth v < length b)%nat /\
    forall fuel lim r, (S (depth v) < fuel)%nat -> zlen b <= lim -> mp_unpack fuel lim (b ++ r) = Ok (v, r).

Lemma mp_items_good l : Forall mp_good l -> forall n nest, Forall (fun x => S (depth x) <= n)%nat l -> (Z.of_nat n <= nest) ->
  exists b, mp_items_enc (nest - 1) l = Ok b /\ (depth (VList l) <= length b)%nat /\ (length l <= length b)%nat /\
    forall fuel lim r, (depth (VList l) < fuel)%nat -> zlen b <= lim ->
      mp_items (mp_unpack fuel lim) (length l) (b ++ r) = Ok (l, r).
Proof.
  intros G n nest. induction G as [|x l Gx Gl IH]; intros D N.
  - exists []. cbn. repeat split; auto.
  - inversion D as [|? ? Dx Dl]; subst. destruct (IH Dl N) as (b & E & L1 & L2 & R). clear IH.
    destruct (Gx (nest - 1)) as (bx & Ex & Lx & Rx); [lia|].
    exists (bx ++ b). cbn [mp_items_enc]. fold (mp_items_enc (nest - 1) l). rewrite Ex, E. unfold cat. cbn [bind].
    split; [reflexivity|]. rewrite app_length. cbn [depth length] in *.
    repeat split; try lia. intros fuel lim r F Z. unfold zlen in *. rewrite app_length in Z. cbn [mp_items]. rewrite <- app_assoc.
    rewrite Rx by (try lia). cbn [bind]. rewrite R by lia. reflexivity.
Qed.

Lemma mp_pairs_good d : Forall (fun kv => mp_good (fst kv) /\ mp_good (snd kv)) d ->
  forall n nest, Forall (fun kv => S (depth (fst kv)) <= n /\ S (depth (snd kv)) <= n)%nat d -> (Z.of_nat n <= nest) ->
  Forall text_key (map fst d) ->
  exists b, mp_pairs_enc (nest - 1) d = Ok b /\ (depth (VDict d) <= length b)%nat /\ (2 * length d <= length b)%nat /\
    forall fuel lim r acc, (depth (VDict d) < fuel)%nat -> zlen b <= lim -> NoDup (map fst (acc ++ d)) ->
      mp_pairs (mp_unpack fuel lim) (length d) acc (b ++ r) = Ok (acc ++ d, r).
Proof.
  intros G n nest. induction G as [|[k x] d [Gk Gx] Gl IH]; intros D N T.
  - exists []. cbn. repeat split; auto. intros. rewrite app_nil_r. reflexivity.
  - inversion D as [|? ? [Dk Dx] Dl]; subst. inversion T as [|? ? Tk Tl]; subst. destruct (IH Dl N Tl) as (b & E & L1 & L2 & R). clear IH.
    cbn [fst snd] in *.
    destruct (Gk (nest - 1)) as (bk & Ek & Lk & Rk); [lia|].
    destruct (Gx (nest - 1)) as (bx & Ex & Lx & Rx); [lia|].
    exists (bk ++ bx ++ b). cbn [mp_pairs_enc]. fold (mp_pairs_enc (nest - 1) d). rewrite Ek, Ex, E. unfold cat. cbn [bind].
    split; [reflexivity|]. rewrite !app_length. cbn [depth length] in *.
    repeat split; try lia. intros fuel lim r acc F Z ND. unfold zlen in *. rewrite !app_length in Z. cbn [mp_pairs]. rewrite <- !app_assoc.
    rewrite Rk by lia. cbn [bind].
    replace (is_text k) with true by (destruct k; cbn in *; tauto).
    rewrite Rx by lia. cbn [bind].
    rewrite vset_new.
    + change (acc ++ (k, x) :: d) with (acc ++ [(k, x)] ++ d) in *. rewrite app_assoc in ND. rewrite R by (try lia; exact ND).
      rewrite <- app_assoc. reflexivity.
    + intros k' I. destruct (key_eqb k k') eqn:K; [|reflexivity]. apply text_key_eqb in K; [|exact Tk]. subst k'.
      rewrite map_app in ND. cbn [map fst] in ND. apply NoDup_remove_2 in ND. contradict ND. apply in_or_app. left; exact I.
Qed.

Lemma nest_ok v nest : Z.of_nat (depth v) <= nest -> (nest <? 0) = false.
Proof. intros. destruct (Z.ltb_spec nest 0); [lia|reflexivity]. Qed.

Lemma mp_good_all v : everywhere msgpack_here v -> mp_good v.
Proof.
  induction v as [|b|z|f|s|b|t b|l IH|d IH] using val_nested; intros W nest Hn;
    pose proof (everywhere_here _ _ W) as [Wp Wh]; cbn [python_value] in Wp; pose proof (nest_ok _ _ Hn) as NB.
  - cbn [mp_pack]. rewrite NB. eexists. split; [reflexivity|]. split; [cbn; lia|]. intros [|fuel]; [lia|]. reflexivity.
  - cbn [mp_pack]. rewrite NB. eexists. split; [reflexivity|]. split; [cbn; lia|]. intros [|fuel]; [lia|]. destruct b; reflexivity.
  - cbn [mp_pack]. rewrite NB. destruct (mp_int_dec z 0 0 [] Wh) as (b & E & L & _). exists b. split; [exact E|].
    split; [destruct b; [congruence|cbn; lia]|]. intros [|fuel] lim r F Z; [lia|].
    destruct (mp_int_dec z fuel lim r Wh) as (b' & E' & _ & R). assert (b' = b) by congruence. subst b'. exact R.
  - cbn [mp_pack]. rewrite NB. eexists. split; [reflexivity|]. split; [cbn; lia|]. intros [|fuel] lim r F Z; [lia|].
    cbn [app mp_unpack]. rewrite byte_Z_of by lia. cbn -[take_int to_be]. rewrite take_int_be' by (cbn; lia). reflexivity.
  - destruct Wh as [Wu Wh]. cbn [mp_pack]. rewrite NB. unfold strict_encode. rewrite Wu. cbn [bind]. destruct (mp_str_head_dec (zlen (encode_str s))) as (h & E & L & R).
    { unfold zlen. rewrite encode_str_length. lia. }
    rewrite E. unfold cat. cbn [bind]. eexists. split; [reflexivity|]. rewrite app_length. cbn [depth].
    split; [destruct h; [congruence|cbn; lia]|]. intros [|fuel] lim r F Z; [lia|]. rewrite <- app_assoc, R. unfold mp_str.
    rewrite mp_raw_app by (unfold zlen in *; rewrite app_length in Z; lia). cbn [bind]. rewrite Wu, decode_encode_str. reflexivity.
  - cbn [mp_pack]. rewrite NB. destruct (mp_bin_head_dec (zlen b)) as (h & E & L & R).
    { unfold zlen. lia. }
    rewrite E. unfold cat. cbn [bind]. eexists. split; [reflexivity|]. rewrite app_length. cbn [depth].
    split; [destruct h; [congruence|cbn; lia]|]. intros [|fuel] lim r F Z; [lia|]. rewrite <- app_assoc, R. unfold mp_bin.
    rewrite mp_raw_app by (unfold zlen in *; rewrite app_length in Z; lia). reflexivity.
  - contradiction.
  - apply everywhere_list in W. destruct W as [_ W].
    assert (G : Forall mp_good l). { rewrite Forall_forall in *. auto. }
    destruct (mp_items_good l G (depth (VList l)) nest) as (b & E & L1 & L2 & R); [apply depth_list; lia|exact Hn|].
    destruct (mp_array_head_dec (zlen l)) as (h & Eh & Lh & Rh). { unfold zlen. lia. }
    cbn [mp_pack]. fold (mp_items_enc (nest - 1) l). rewrite NB, Eh, E. unfold cat. cbn [bind]. eexists. split; [reflexivity|].
    rewrite app_length. assert (1 <= length h)%nat by (destruct h; [congruence|cbn; lia]).
    split; [lia|]. intros [|fuel] lim r F Z; [lia|]. unfold zlen in *. rewrite app_length in Z.
    rewrite <- app_assoc, Rh. destruct fuel as [|fuel]; [lia|]. cbn [mp_nest]. unfold mp_array. destruct (Z.ltb_spec lim (Z.of_nat (length l))); [lia|].
    rewrite Nat2Z.id, R by lia. reflexivity.
  - apply everywhere_dict in W. destruct W as [_ W]. destruct Wh as (WL & WN & WT).
    assert (G : Forall (fun kv => mp_good (fst kv) /\ mp_good (snd kv)) d).
    { rewrite Forall_forall in *. intros kv J. specialize (W kv J). specialize (IH kv J). tauto. }
    destruct (mp_pairs_good d G (depth (VDict d)) nest) as (b & E & L1 & L2 & R); [apply depth_dict; lia|exact Hn|exact WT|].
    destruct (mp_map_head_dec (zlen d)) as (h & Eh & Lh & Rh). { unfold zlen. lia. }
    cbn [mp_pack]. fold (mp_pairs_enc (nest - 1) d). rewrite NB, Eh, E. unfold cat. cbn [bind]. eexists. split; [reflexivity|].
    rewrite app_length. assert (1 <= length h)%nat by (destruct h; [congruence|cbn; lia]).
    split; [lia|]. intros [|fuel] lim r F Z; [lia|]. unfold zlen in *. rewrite app_length in Z.
    rewrite <- app_assoc, Rh. destruct fuel as [|fuel]; [lia|]. cbn [mp_nest]. unfold mp_map. destruct (Z.ltb_spec (lim / 2) (Z.of_nat (length d))) as [Q|Q].
    { apply Z.div_lt_upper_bound with (b := 2) in Q || (assert (2 * Z.of_nat (length d) <= lim) by lia;
        pose proof (Z.div_le_lower_bound lim 2 (Z.of_nat (length d))); lia). }
    rewrite Nat2Z.id, R by (try lia; exact WN). reflexivity.
Qed.

Lemma msgpack_round_trip v : msgpack_value v -> codec_round_trips msgpack v.
Proof.
  intros [W D]. destruct (mp_good_all v W 511) as (b & E & L & R); [lia|].
  exists b. split; [exact E|]. split; [destruct b; [cbn in L; lia|discriminate]|]. cbn [loads msgpack]. unfold mp_loads.
  replace (mp_unpack (S MP_STACK) (zlen b) b) with (mp_unpack (S MP_STACK) (zlen b) (b ++ [])) by (rewrite app_nil_r; reflexivity).
  rewrite R by (unfold MP_STACK; lia). reflexivity.
Qed.

(** ** The decoder on arbitrary input *)
Definition decodes (b : bytes) (x : res (val * bytes)) : Prop :=
  match x with
  | Ok (v, r) => (length r < length b)%nat /\ everywhere python_value v
  | Raise (ValueError _) | Raise (CodecError _) => True
  | Raise _ => False
  end.

Lemma take_decodes n b : match take n b with Ok (x, r) => b = x ++ r /\ length x = n | Raise (CodecError _) => True | Raise _ => False end.
Proof. destruct (take n b) as [[x r]|e] eqn:E; [apply take_inv; exact E|]. unfold take in E. destruct (_ <=? _)%nat; [discriminate|]. injection E as <-. exact I. Qed.

Lemma take_int_decodes n b : match take_int n b with Ok (z, r) => (length r <= length b)%nat /\ 0 <= z < 256 ^ Z.of_nat n | Raise (CodecError _) => True | Raise _ => False end.
Proof.
  unfold take_int. pose proof (take_decodes n b) as T. destruct (take n b) as [[x r]|e]; cbn [bind]; [|exact T].
  destruct T as [-> <-]. rewrite app_length. split; [lia|apply of_be_range].
Qed.

Lemma mp_raw_decodes lim n b : match mp_raw lim n b with
  | Ok (x, r) => (length r <= length b)%nat | Raise (CodecError _) | Raise (ValueError _) => True | Raise _ => False end.
Proof.
  unfold mp_raw. destruct (lim <? n); [exact I|]. pose proof (take_decodes (Z.to_nat n) b) as T.
  destruct (take (Z.to_nat n) b) as [[x r]|[]]; try exact T; try exact I. destruct T as [-> _]. rewrite app_length. lia.
Qed.

Lemma expo_mant E M : 0 <= E <= 2047 -> 0 <= M < 2 ^ 52 -> 0 <= E * 2 ^ 52 + M < 2 ^ 63.
Proof. change (2 ^ 63) with (2048 * 2 ^ 52). lia. Qed.
Lemma subnormal e m M : 3 <= e <= 11 -> 1 <= m <= 52 -> 0 < M < 2 ^ m -> m + 2 ^ (e - 1) <= 1023 ->
  0 <= (Z.log2 M + 1 - (2 ^ (e - 1) - 1) - m + 1023) * 2 ^ 52 + (M - 2 ^ Z.log2 M) * 2 ^ (52 - Z.log2 M) < 2 ^ 63.
Proof.
  intros He Hm HM Hb. pose proof (Z.log2_spec M) as [L1 L2]; [lia|]. pose proof (Z.log2_nonneg M).
  assert (Z.log2 M < m) by (apply Z.log2_lt_pow2; lia).
  assert (2 ^ 2 <= 2 ^ (e - 1)) by (apply Z.pow_le_mono_r; lia).
  apply expo_mant; [lia|]. rewrite Z.pow_succ_r in L2 by lia.
  assert (2 ^ 52 = 2 ^ Z.log2 M * 2 ^ (52 - Z.log2 M)) as -> by (rewrite <- Z.pow_add_r by lia; f_equal; lia).
  assert (0 < 2 ^ (52 - Z.log2 M)) by (apply Z.pow_pos_nonneg; lia). nia.
Qed.
Lemma widen_range e m z : 3 <= e < 11 -> 1 <= m < 52 -> m + 2 ^ (e - 1) <= 1023 -> 0 <= z < 2 ^ (1 + e + m) -> 0 <= widen e m z < 2 ^ 64.
Proof.
  intros He Hm Hb Hz. unfold widen.
  assert (Hs : 0 <= z / 2 ^ (e + m) < 2).
  { assert (0 < 2 ^ (e + m)) by (apply Z.pow_pos_nonneg; lia).
    split; [apply Z.div_pos; lia|]. apply Z.div_lt_upper_bound; [lia|].
    replace (2 ^ (e + m) * 2) with (2 ^ (1 + e + m)); [lia|]. rewrite <- Z.add_assoc, Z.pow_add_r by lia. lia. }
  pose proof (Z.mod_pos_bound z (2 ^ m)) as HM. assert (P : 0 < 2 ^ m) by (apply Z.pow_pos_nonneg; lia). specialize (HM P).
  set (M := z mod 2 ^ m) in *.
  pose proof (Z.mod_pos_bound (z / 2 ^ m) (2 ^ e)) as HE. assert (Pe : 0 < 2 ^ e) by (apply Z.pow_pos_nonneg; lia). specialize (HE Pe).
  set (E := (z / 2 ^ m) mod 2 ^ e) in *. set (s := z / 2 ^ (e + m)) in *.
  assert (HM' : 0 <= M * 2 ^ (52 - m) < 2 ^ 52).
  { assert (2 ^ 52 = 2 ^ m * 2 ^ (52 - m)) as -> by (rewrite <- Z.pow_add_r by lia; f_equal; lia).
    assert (0 < 2 ^ (52 - m)) by (apply Z.pow_pos_nonneg; lia). nia. }
  assert (T : forall x, 0 <= x < 2 ^ 63 -> 0 <= s * 2 ^ 63 + x < 2 ^ 64) by (intros x Hx; change (2 ^ 64) with (2 * 2 ^ 63); nia).
  apply T.
  assert (2 ^ e = 2 * 2 ^ (e - 1)) by (rewrite <- Z.pow_succ_r by lia; f_equal; lia).
  destruct (Z.eqb_spec E (2 ^ e - 1)); [apply expo_mant; lia|].
  destruct (Z.eqb_spec E 0); [destruct (Z.eqb_spec M 0); [lia|apply subnormal; lia]|apply expo_mant; lia].
Qed.

Lemma mp_items_decodes dec n : (forall c, (length c <= n)%nat -> decodes c (dec c)) -> forall k b, (length b <= n)%nat ->
  match mp_items dec k b with
  | Ok (l, r) => (length r <= length b)%nat /\ Forall (everywhere python_value) l
  | Raise (ValueError _) | Raise (CodecError _) => True
  | Raise _ => False
  end.
Proof.
  intros D k. induction k as [|k IH]; intros b L; cbn [mp_items]; [split; [lia|constructor]|].
  specialize (D b L) as Db. unfold decodes in Db. destruct (dec b) as [[x r]|e]; cbn [bind]; [|destruct e; try exact I; auto; tauto].
  destruct Db as [Lr Px]. specialize (IH r). destruct (mp_items dec k r) as [[l r']|e]; cbn [bind].
  - destruct IH as [A B]; [lia|]. split; [lia|constructor; assumption].
  - apply IH. lia.
Qed.

Lemma vset_all (A : val -> Prop) k x d : A k -> A x -> Forall (fun kv => A (fst kv) /\ A (snd kv)) d ->
  Forall (fun kv => A (fst kv) /\ A (snd kv)) (vset k x d).
Proof.
  unfold vset. intros Hk Hx. induction 1 as [|[k' x'] d B C IH]; cbn [dset]; [constructor; auto|].
  destruct (key_eqb k k'); constructor; cbn [fst snd] in *; tauto.
Qed.

Lemma mp_pairs_decodes dec n : (forall c, (length c <= n)%nat -> decodes c (dec c)) -> forall k d b, (length b <= n)%nat ->
  Forall (fun kv => everywhere python_value (fst kv) /\ everywhere python_value (snd kv)) d ->
  match mp_pairs dec k d b with
  | Ok (d', r) => (length r <= length b)%nat /\
      Forall (fun kv => everywhere python_value (fst kv) /\ everywhere python_value (snd kv)) d'
  | Raise (ValueError _) | Raise (CodecError _) => True
  | Raise _ => False
  end.
Proof.
  intros D k. induction k as [|k IH]; intros d b L Hd; cbn [mp_pairs]; [split; [lia|assumption]|].
  specialize (D b L) as Db. unfold decodes in Db. destruct (dec b) as [[x r]|e]; cbn [bind]; [|destruct e; try exact I; auto; tauto].
  destruct Db as [Lr Px]. destruct (is_text x); [|exact I].
  assert (L' : (length r <= n)%nat) by lia. specialize (D r L') as Dr. unfold decodes in Dr.
  destruct (dec r) as [[y r']|e]; cbn [bind]; [|destruct e; try exact I; auto; tauto]. destruct Dr as [Lr' Py].
  specialize (IH (vset x y d) r'). destruct (mp_pairs dec k (vset x y d) r') as [[d' r'']|e].
  - destruct IH as [A B]; [lia|apply vset_all; assumption|]. split; [lia|assumption].
  - apply IH; [lia|apply vset_all; assumption].
Qed.

Lemma mp_str_decodes a b lim n r : (length r < length b)%nat -> a = mp_str lim n r -> decodes b a.
Proof.
  intros L ->. unfold mp_str. pose proof (mp_raw_decodes lim n r) as T. destruct (mp_raw lim n r) as [[x r']|e]; cbn [bind]; [|destruct e; try exact I; auto; tauto].
  destruct (utf8_valid x) eqn:U; cbn; [|exact I]. split; [lia|]. rewrite encode_decode_str. auto using utf8_valid_str.
Qed.
Lemma mp_bin_decodes a b lim n r : (length r < length b)%nat -> a = mp_bin lim n r -> decodes b a.
Proof.
  intros L ->. unfold mp_bin. pose proof (mp_raw_decodes lim n r) as T. destruct (mp_raw lim n r) as [[x r']|e]; cbn [bind]; [|destruct e; try exact I; auto; tauto].
  cbn. split; [lia|auto].
Qed.
Lemma mp_ext_decodes a b lim n r : (length r < length b)%nat -> a = mp_ext lim n r -> decodes b a.
Proof.
  intros L ->. unfold mp_ext. pose proof (take_decodes 1 r) as T1. destruct (take 1 r) as [[y r1]|e]; cbn [bind]; [|destruct e; try exact I; auto; tauto].
  destruct T1 as [-> T1]. rewrite app_length in L.
  pose proof (mp_raw_decodes lim n r1) as T. destruct (mp_raw lim n r1) as [[x r']|e]; cbn [bind]; [|destruct e; try exact I; auto; tauto].
  cbn. split; [lia|auto].
Qed.
Lemma mp_array_decodes a b dec lim n r : (length r < length b)%nat -> (forall c, (length c <= length r)%nat -> decodes c (dec c)) ->
  a = mp_array dec lim n r -> decodes b a.
Proof.
  intros L D ->. unfold mp_array. destruct (lim <? n); [exact I|]. pose proof (mp_items_decodes dec (length r) D (Z.to_nat n) r) as T.
  destruct (mp_items dec (Z.to_nat n) r) as [[x r']|e]; cbn [bind]; [|apply T; lia].
  destruct T as [A B]; [lia|]. split; [lia|]. apply everywhere_list. split; [exact I|assumption].
Qed.
Lemma mp_map_decodes a b dec lim n r : (length r < length b)%nat -> (forall c, (length c <= length r)%nat -> decodes c (dec c)) ->
  a = mp_map dec lim n r -> decodes b a.
Proof.
  intros L D ->. unfold mp_map. destruct (lim / 2 <? n); [exact I|]. pose proof (mp_pairs_decodes dec (length r) D (Z.to_nat n) [] r) as T.
  destruct (mp_pairs dec (Z.to_nat n) [] r) as [[x r']|e]; cbn [bind]; [|apply T; [lia|constructor]].
  destruct T as [A B]; [lia|constructor|]. split; [lia|]. apply everywhere_dict. split; [exact I|assumption].
Qed.
Lemma sized_decodes b n r (k : Z -> bytes -> res (val * bytes)) : (length r < length b)%nat ->
  (forall z r', (length r' <= length r)%nat -> 0 <= z < 256 ^ Z.of_nat n -> decodes b (k z r')) ->
  decodes b (let! (z, r') := take_int n r in k z r').
Proof.
  intros L K. pose proof (take_int_decodes n r) as T. destruct (take_int n r) as [[z r']|e]; cbn [bind]; [|destruct e; try exact I; auto; tauto].
  apply K; tauto.
Qed.

Lemma nest_decodes b f (x : res (val * bytes)) : decodes b x -> decodes b (mp_nest f x).
Proof. intros D. destruct f; [exact I|exact D]. Qed.
Lemma mp_unpack_decodes fuel : forall lim b, decodes b (mp_unpack fuel lim b).
Proof.
  induction fuel as [|f IH]; intros lim b; [exact I|]. destruct b as [|a r]; cbn [mp_unpack]; [exact I|].
  assert (Lr : (length r < length (a :: r))%nat) by (cbn; lia).
  assert (D : forall c, (length c <= length r)%nat -> decodes c (mp_unpack f lim c)) by (intros; apply IH).
  assert (V : forall v, everywhere python_value v -> decodes (a :: r) (Ok (v, r))) by (intros v P; split; assumption).
  assert (VI : forall z, everywhere python_value (VInt z)) by (split; exact I).
  assert (Int : forall n g, decodes (a :: r) (let! (z, r') := take_int n r in Ok (VInt (g z), r'))).
  { intros n g. apply sized_decodes; [exact Lr|]. intros z r' L' _. split; [lia|apply VI]. }
  repeat match goal with
  | |- context [if ?c then _ else _] => destruct c eqn:?
  end;
  try (apply nest_decodes);
  first
    [ apply V; split; exact I
    | exact I
    | apply (Int _ (fun z => z))
    | apply Int
    | eapply mp_map_decodes; [exact Lr|exact D|reflexivity]
    | eapply mp_array_decodes; [exact Lr|exact D|reflexivity]
    | eapply mp_str_decodes; [exact Lr|reflexivity]
    | eapply mp_ext_decodes; [exact Lr|reflexivity]
    | apply sized_decodes; [exact Lr|]; intros z r' L' Z'; try (apply nest_decodes);
      first
        [ eapply mp_map_decodes; [|intros; apply D|reflexivity]; lia
        | eapply mp_array_decodes; [|intros; apply D|reflexivity]; lia
        | eapply mp_str_decodes; [|reflexivity]; lia
        | eapply mp_bin_decodes; [|reflexivity]; lia
        | eapply mp_ext_decodes; [|reflexivity]; lia
        | split; [lia|]; split; [|exact I]; cbn [python_value]; first [ apply widen_range; [lia|lia|cbn; lia|rewrite pow2 in Z'; exact Z'] | rewrite pow2 in Z'; exact Z' ] ] ].
Qed.

(** On any octets [loads] returns a Python value or raises ValueError. *)
Lemma mp_loads_total b : (exists v, mp_loads b = Ok v /\ everywhere python_value v) \/ (exists m, mp_loads b = Raise (ValueError m)).
Proof.
  unfold mp_loads. pose proof (mp_unpack_decodes (S MP_STACK) (zlen b) b) as T. unfold decodes in T.
  destruct (mp_unpack (S MP_STACK) (zlen b) b) as [[v r]|e].
  - destruct T as [_ T]. destruct r; [left; eauto|right; eauto].
  - destruct e; try contradiction; right; eauto.
Qed.
