(** * CborFacts: the CBOR decoder inverts the encoder. *)
From Coq Require Import String Ascii List ZArith Bool Lia.
From Verif Require Import PyBase DictFacts Rawsocket BitFacts Encoding EncodingFacts Utf8 Utf8Facts CodecBase Serializer SerializerFacts
  MsgPack Cbor SpecCodec CodecFacts MsgPackFacts.
Import ListNotations.
Local Open Scope Z_scope.

Definition cb_items_enc (l : list val) : res bytes :=
  (fix items l := match l with [] => Ok [] | x :: l' => cat (cb_enc x) (items l') end) l.
Definition cb_pairs_enc (d : dict) : res bytes :=
  (fix pairs d := match d with [] => Ok [] | (k, x) :: d' => cat (cb_enc k) (cat (cb_enc x) (pairs d')) end) d.

(** What the decoder does after the initial octet, as a function of major type and subtype. *)
Definition cb_item (f : nat) (major sub : Z) (r : bytes) : res (val * bytes) :=
  if major =? 0 then let! (z, r') := cb_uint sub r in Ok (VInt z, r')
  else if major =? 1 then let! (z, r') := cb_uint sub r in Ok (VInt (- z - 1), r')
  else if major =? 2 then let! (x, r') := cb_string (S (length r)) 2 sub r in Ok (VBytes x, r')
  else if major =? 3 then
    let! (x, r') := cb_string (S (length r)) 3 sub r in
    if utf8_valid x then Ok (VStr (decode_str x), r') else Raise (CodecError "error decoding unicode string")
  else if major =? 4 then
    let! (n, r') := cb_len sub r in
    let! (l, r'') := match n with
                     | Some z => mp_items (cb_dec f) (Z.to_nat z) r'
                     | None => cb_items_break (cb_dec f) (S (length r)) r'
                     end in
    Ok (VList l, r'')
  else if major =? 5 then
    let! (n, r') := cb_len sub r in
    let! (d, r'') := match n with
                     | Some z => cb_pairs (cb_dec f) (Z.to_nat z) [] r'
                     | None => cb_pairs_break (cb_dec f) (S (length r)) [] r'
                     end in
    Ok (VDict d, r'')
  else if major =? 6 then
    let! (tag, r') := cb_uint sub r in
    if tag =? 2 then cb_big (cb_dec f r') false
    else if tag =? 3 then cb_big (cb_dec f r') true
    else Raise ModelGap
  else cb_special sub r.
Lemma cb_dec_item f a r : cb_dec (S f) (a :: r) = cb_item f (byte_Z a / 32) (byte_Z a mod 32) r.
Proof. reflexivity. Qed.

(** A head is an initial octet followed by what [cb_len] reads back. *)
Lemma cb_head_dec major n : 0 <= major < 8 -> 0 <= n < 2 ^ 64 ->
  exists a h, cb_head major n = a :: h /\ byte_Z a / 32 = major /\
    forall r, cb_len (byte_Z a mod 32) (h ++ r) = Ok (Some n, r).
Proof.
  intros Hm Hn. unfold cb_head.
  assert (B : forall s, 0 <= s < 32 -> byte_Z (byte_of (32 * major + s)) / 32 = major /\ byte_Z (byte_of (32 * major + s)) mod 32 = s).
  { intros s Hs. rewrite byte_Z_of by lia. split; [|].
    - rewrite Z.mul_comm, Z.div_add_l by lia. rewrite (Z.div_small s 32) by lia. lia.
    - rewrite Z.add_comm, Z.mul_comm, Z_mod_plus_full. apply Z.mod_small. lia. }
  destruct (Z.ltb_spec n 24).
  { exists (byte_of (32 * major + n)), []. split; [reflexivity|]. destruct (B n) as [B1 B2]; [lia|]. split; [exact B1|].
    intros r. rewrite B2. unfold cb_len. destruct (Z.ltb_spec n 24); [reflexivity|lia]. }
  destruct (Z.ltb_spec n (2 ^ 8)).
  { eexists _, _. split; [reflexivity|]. destruct (B 24) as [B1 B2]; [lia|]. split; [exact B1|]. intros r. rewrite B2.
    cbn -[take_int to_be]. rewrite take_int_be' by (cbn; lia). reflexivity. }
  destruct (Z.ltb_spec n (2 ^ 16)).
  { eexists _, _. split; [reflexivity|]. destruct (B 25) as [B1 B2]; [lia|]. split; [exact B1|]. intros r. rewrite B2.
    cbn -[take_int to_be]. rewrite take_int_be' by (cbn; lia). reflexivity. }
  destruct (Z.ltb_spec n (2 ^ 32)).
  { eexists _, _. split; [reflexivity|]. destruct (B 26) as [B1 B2]; [lia|]. split; [exact B1|]. intros r. rewrite B2.
    cbn -[take_int to_be]. rewrite take_int_be' by (cbn; lia). reflexivity. }
  { eexists _, _. split; [reflexivity|]. destruct (B 27) as [B1 B2]; [lia|]. split; [exact B1|]. intros r. rewrite B2.
    cbn -[take_int to_be]. rewrite take_int_be' by (cbn; lia). reflexivity. }
Qed.
Lemma cb_uint_of_len sub n b r : cb_len sub b = Ok (Some n, r) -> cb_uint sub b = Ok (n, r).
Proof. unfold cb_uint. intros ->. reflexivity. Qed.

Lemma cb_bytes_dec b fuel r : zlen b < 2 ^ 64 -> cb_dec (S fuel) ((cb_head 2 (zlen b) ++ b) ++ r) = Ok (VBytes b, r).
Proof.
  intros H. destruct (cb_head_dec 2 (zlen b)) as (a & h & -> & M & L); [lia|unfold zlen in *; lia|].
  rewrite <- app_assoc. cbn [app]. rewrite cb_dec_item, M. cbn -[cb_string]. unfold cb_string. rewrite L. cbn [bind].
  unfold zlen. rewrite Nat2Z.id, take_app. reflexivity.
Qed.
Lemma cb_str_dec s fuel r : zlen (encode_str s) < 2 ^ 64 -> utf8_valid (encode_str s) = true ->
  cb_dec (S fuel) ((cb_head 3 (zlen (encode_str s)) ++ encode_str s) ++ r) = Ok (VStr s, r).
Proof.
  intros H U. destruct (cb_head_dec 3 (zlen (encode_str s))) as (a & h & -> & M & L); [lia|unfold zlen in *; lia|].
  rewrite <- app_assoc. cbn [app]. rewrite cb_dec_item, M. cbn -[cb_string]. unfold cb_string. rewrite L. cbn [bind].
  unfold zlen. rewrite Nat2Z.id, take_app. cbn [bind]. rewrite U, decode_encode_str. reflexivity.
Qed.

Lemma bit_length_fits z : 0 <= z -> z < 2 ^ (8 * ((bit_length z + 7) / 8)) /\ (bit_length z + 7) / 8 <= Z.log2 z + 1 /\ 0 <= (bit_length z + 7) / 8.
Proof.
  intros H. unfold bit_length. pose proof (Z.log2_nonneg z). destruct (Z.eqb_spec z 0); [subst; cbn; lia|].
  pose proof (Z.div_mod (Z.log2 z + 1 + 7) 8) as D. pose proof (Z.mod_pos_bound (Z.log2 z + 1 + 7) 8).
  split; [|lia]. pose proof (Z.log2_spec z) as [_ L]; [lia|].
  eapply Z.lt_le_trans; [exact L|]. apply Z.pow_le_mono_r; lia.
Qed.

Lemma to_be_nonempty n z : (0 < n)%nat -> exists a b, to_be n z = a :: b.
Proof. destruct n; [lia|]. cbn; eauto. Qed.

Lemma cb_big_dec tag z fuel r : tag = 2 \/ tag = 3 -> 0 < z -> Z.log2 z + 1 < 2 ^ 64 ->
  cb_dec (S (S fuel)) (cb_bignum tag z ++ r) = Ok (VInt (if tag =? 2 then z else - z - 1), r).
Proof.
  intros Ht Hz HL. unfold cb_bignum. destruct (bit_length_fits z) as (F1 & F2 & F3); [lia|].
  set (n := (bit_length z + 7) / 8) in *.
  assert (N : zlen (to_be (Z.to_nat n) z) = n) by (unfold zlen; rewrite to_be_length, Z2Nat.id by lia; reflexivity).
  assert (Pn : 0 < n). { destruct (Z.eq_dec n 0) as [E|]; [rewrite E in F1; cbn in F1; lia|lia]. }
  destruct (cb_head_dec 6 tag) as (a & h & -> & M & L); [lia|lia|]. rewrite <- app_assoc. cbn [app].
  rewrite cb_dec_item, M. unfold cb_item. cbn [Z.eqb]. change (6 =? 0) with false. change (6 =? 1) with false. change (6 =? 2) with false.
  change (6 =? 3) with false. change (6 =? 4) with false. change (6 =? 5) with false. change (6 =? 6) with true. cbv iota.
  rewrite (cb_uint_of_len _ _ _ _ (L _)). cbn [bind].
  pose proof (cb_bytes_dec (to_be (Z.to_nat n) z) fuel r) as B. rewrite N in B. rewrite B by lia. unfold cb_big. cbn [bind].
  assert (O : of_be (to_be (Z.to_nat n) z) = z). { apply of_be_to_be. rewrite pow2, Z2Nat.id by lia. lia. }
  destruct (to_be_nonempty (Z.to_nat n) z) as (x & y & E); [lia|]. rewrite E in *. rewrite O.
  destruct Ht; subst tag; reflexivity.
Qed.

Lemma log2_pred z : 0 < z -> Z.log2 (z - 1) <= Z.log2 z.
Proof. intros. apply Z.log2_le_mono. lia. Qed.

Lemma cb_int_dec z fuel r : Z.log2 (Z.abs z) + 1 < 2 ^ 64 -> cb_dec (S (S fuel)) (cb_int z ++ r) = Ok (VInt z, r).
Proof.
  intros HL. unfold cb_int. destruct (Z.leb_spec 0 z).
  - destruct (Z.ltb_spec z (2 ^ 64)).
    + destruct (cb_head_dec 0 z) as (a & h & -> & M & L); [lia|lia|]. cbn [app]. rewrite cb_dec_item, M. unfold cb_item.
      change (0 =? 0) with true. cbv iota. rewrite (cb_uint_of_len _ _ _ _ (L _)). reflexivity.
    + rewrite Z.abs_eq in HL by lia. rewrite cb_big_dec by (auto; lia). reflexivity.
  - destruct (Z.leb_spec (- 2 ^ 64) z).
    + destruct (cb_head_dec 1 (- (z + 1))) as (a & h & -> & M & L); [lia|lia|]. cbn [app]. rewrite cb_dec_item, M. unfold cb_item.
      change (1 =? 0) with false. change (1 =? 1) with true. cbv iota. rewrite (cb_uint_of_len _ _ _ _ (L _)). cbn [bind]. do 3 f_equal. lia.
    + rewrite Z.abs_neq in HL by lia. pose proof (log2_pred (- z)). rewrite cb_big_dec by (auto; lia).
      change (3 =? 2) with false. cbv iota. do 3 f_equal. lia.
Qed.

Lemma cb_float_dec f fuel r : 0 <= f < 2 ^ 64 -> (is_nan f = true -> f = NAN) -> cb_dec (S fuel) (cb_float f ++ r) = Ok (VFloat f, r).
Proof.
  intros Hf Hn. unfold cb_float. destruct (is_nan f). { rewrite (Hn eq_refl). reflexivity. }
  destruct (Z.eqb_spec f INF) as [->|]; [reflexivity|]. destruct (Z.eqb_spec f (2 ^ 63 + INF)) as [->|]; [reflexivity|].
  cbn [app]. rewrite cb_dec_item. rewrite byte_Z_of by lia. unfold cb_item. change (251 / 32) with 7. change (251 mod 32) with 27.
  cbn -[take_int to_be]. rewrite take_int_be' by (cbn; lia). reflexivity.
Qed.

Definition cb_good (v : val) : Prop :=
  exists b, cb_enc v = Ok b /\ (depth v < length b)%nat /\
    forall fuel r, (S (depth v) < fuel)%nat -> cb_dec fuel (b ++ r) = Ok (v, r).

Lemma cb_items_good l : Forall cb_good l ->
  exists b, cb_items_enc l = Ok b /\ (depth (VList l) <= length b)%nat /\
    forall fuel r, (depth (VList l) < fuel)%nat -> mp_items (cb_dec fuel) (length l) (b ++ r) = Ok (l, r).
Proof.
  intros G. induction G as [|x l Gx Gl IH].
  - exists []. cbn. repeat split; auto.
  - destruct IH as (b & E & L1 & R). destruct Gx as (bx & Ex & Lx & Rx).
    exists (bx ++ b). cbn [cb_items_enc]. fold (cb_items_enc l). rewrite Ex, E. unfold cat. cbn [bind].
    split; [reflexivity|]. rewrite app_length. cbn [depth length] in *.
    split; [lia|]. intros fuel r F. cbn [mp_items]. rewrite <- app_assoc. rewrite Rx by lia. cbn [bind]. rewrite R by lia. reflexivity.
Qed.

Lemma distinct_mid ks k l : distinct_keys (ks ++ k :: l) -> forall k', In k' ks -> key_eqb k k' = false.
Proof.
  unfold distinct_keys. induction ks as [|x ks IH]; cbn [app]; [intros _ ? []|]. intros D k' [->|J]; inversion D as [|? ? A B]; subst.
  - rewrite Forall_forall in A. apply A. apply in_or_app. right; left; reflexivity.
  - apply IH; assumption.
Qed.

Lemma cb_pairs_good d : Forall (fun kv => cb_good (fst kv) /\ cb_good (snd kv)) d -> 
  exists b, cb_pairs_enc d = Ok b /\ (depth (VDict d) <= length b)%nat /\
    forall fuel r acc, (depth (VDict d) < fuel)%nat -> distinct_keys (map fst (acc ++ d)) -> Forall scalar_key (map fst (acc ++ d)) ->
      cb_pairs (cb_dec fuel) (length d) acc (b ++ r) = Ok (acc ++ d, r).
Proof.
  intros G. induction G as [|[k x] d [Gk Gx] Gl IH].
  - exists []. cbn. repeat split; auto. intros. rewrite app_nil_r. reflexivity.
  - destruct IH as (b & E & L1 & R). cbn [fst snd] in *. destruct Gk as (bk & Ek & Lk & Rk). destruct Gx as (bx & Ex & Lx & Rx).
    exists (bk ++ bx ++ b). cbn [cb_pairs_enc]. fold (cb_pairs_enc d). rewrite Ek, Ex, E. unfold cat. cbn [bind].
    split; [reflexivity|]. rewrite !app_length. cbn [depth length] in *.
    split; [lia|]. intros fuel r acc F ND T. cbn [cb_pairs]. rewrite <- !app_assoc.
    rewrite Rk by lia. cbn [bind]. rewrite Rx by lia. cbn [bind].
    assert (Tk : scalar_key k).
    { rewrite Forall_forall in T. apply T. rewrite map_app. apply in_or_app. right; left; reflexivity. }
    replace (hashable k) with true by (destruct k; cbn in *; tauto).
    rewrite vset_new.
    + change (acc ++ (k, x) :: d) with (acc ++ [(k, x)] ++ d) in *. rewrite app_assoc in ND, T. rewrite R by (try lia; assumption).
      rewrite <- app_assoc. reflexivity.
    + rewrite map_app in ND. exact (distinct_mid _ _ _ ND).
Qed.

Lemma cb_head_nonempty m n : (0 < length (cb_head m n))%nat.
Proof. unfold cb_head. repeat match goal with |- context [if ?c then _ else _] => destruct c end; cbn; lia. Qed.

Lemma cb_good_all v : everywhere cbor_here v -> cb_good v.
Proof.
  induction v as [|b|z|f|s|b|t b|l IH|d IH] using val_nested; intros W;
    pose proof (everywhere_here _ _ W) as [Wp Wh]; cbn [python_value] in Wp.
  - eexists. split; [reflexivity|]. split; [cbn; lia|]. intros [|fuel]; [lia|]. reflexivity.
  - eexists. split; [reflexivity|]. split; [cbn; lia|]. intros [|fuel]; [lia|]. destruct b; reflexivity.
  - eexists. split; [reflexivity|]. split.
    + unfold cb_int, cb_bignum. repeat match goal with |- context [if ?c then _ else _] => destruct c end;
        rewrite ?app_length; cbn [depth]; pose proof cb_head_nonempty as N; eauto using Nat.lt_lt_add_r.
    + intros [|[|fuel]] r F; [lia|cbn in F; lia|]. apply cb_int_dec. cbn in *; lia.
  - eexists. split; [reflexivity|]. split.
    + unfold cb_float. repeat match goal with |- context [if ?c then _ else _] => destruct c end; cbn; lia.
    + intros [|fuel] r F; [lia|]. apply cb_float_dec; assumption.
  - destruct Wh as [Wu Wh]. unfold cb_good. cbn [cb_enc]. unfold strict_encode. rewrite Wu. cbn [bind]. eexists. split; [reflexivity|]. split.
    + rewrite app_length. cbn [depth]. pose proof (cb_head_nonempty 3 (zlen (encode_str s))). lia.
    + intros [|fuel] r F; [lia|]. apply cb_str_dec; [unfold zlen; rewrite encode_str_length|]; assumption.
  - eexists. split; [reflexivity|]. split.
    + rewrite app_length. cbn [depth]. pose proof (cb_head_nonempty 2 (zlen b)). lia.
    + intros [|fuel] r F; [lia|]. apply cb_bytes_dec; assumption.
  - contradiction.
  - apply everywhere_list in W. destruct W as [_ W].
    assert (G : Forall cb_good l). { rewrite Forall_forall in *. auto. }
    destruct (cb_items_good l G) as (b & E & L1 & R).
    unfold cb_good. cbn [cb_enc]. fold (cb_items_enc l). rewrite E. unfold cat. cbn [bind]. eexists. split; [reflexivity|].
    rewrite app_length. pose proof (cb_head_nonempty 4 (zlen l)). split; [lia|]. intros [|fuel] r F; [lia|].
    destruct (cb_head_dec 4 (zlen l)) as (a & h & -> & M & L); [lia|unfold zlen; lia|]. rewrite <- app_assoc. cbn [app].
    rewrite cb_dec_item, M. unfold cb_item. cbn [Z.eqb Pos.eqb]. rewrite L. cbn [bind]. unfold zlen. rewrite Nat2Z.id, R by lia. reflexivity.
  - apply everywhere_dict in W. destruct W as [_ W]. destruct Wh as (WL & WN & WT).
    assert (G : Forall (fun kv => cb_good (fst kv) /\ cb_good (snd kv)) d).
    { rewrite Forall_forall in *. intros kv J. specialize (W kv J). specialize (IH kv J). tauto. }
    destruct (cb_pairs_good d G) as (b & E & L1 & R).
    unfold cb_good. cbn [cb_enc]. fold (cb_pairs_enc d). rewrite E. unfold cat. cbn [bind]. eexists. split; [reflexivity|].
    rewrite app_length. pose proof (cb_head_nonempty 5 (zlen d)). split; [lia|]. intros [|fuel] r F; [lia|].
    destruct (cb_head_dec 5 (zlen d)) as (a & h & -> & M & L); [lia|unfold zlen; lia|]. rewrite <- app_assoc. cbn [app].
    rewrite cb_dec_item, M. unfold cb_item. cbn [Z.eqb Pos.eqb]. rewrite L. cbn [bind]. unfold zlen. rewrite Nat2Z.id, R by (try lia; assumption). reflexivity.
Qed.

Lemma cbor_round_trip v : cbor_value v -> codec_round_trips cbor v.
Proof.
  intros W. destruct (cb_good_all v W) as (b & E & L & R).
  exists b. split; [exact E|]. split; [destruct b; [cbn in L; lia|discriminate]|]. cbn [loads cbor]. unfold cb_loads, cb_loads_within.
  replace (cb_dec (S (length b)) b) with (cb_dec (S (length b)) (b ++ [])) by (rewrite app_nil_r; reflexivity).
  rewrite R by lia. reflexivity.
Qed.

(** Octets after the value are ignored. *)
Lemma cbor_trailing v r : cbor_value v -> exists b, dumps cbor v = Ok b /\ loads cbor (b ++ r) = Ok v.
Proof.
  intros W. destruct (cb_good_all v W) as (b & E & L & R). exists b. split; [exact E|]. cbn [loads cbor]. unfold cb_loads, cb_loads_within.
  rewrite R by (rewrite app_length; lia). reflexivity.
Qed.

(** ** The decoder on arbitrary input *)
Definition cb_error (e : exn) : Prop := match e with CodecError _ | ModelGap => True | _ => False end.
Definition cb_decodes (b : bytes) (x : res (val * bytes)) : Prop :=
  match x with Ok (v, r) => (length r < length b)%nat /\ everywhere python_value v | Raise e => cb_error e end.

Lemma take_cb n b : match take n b with Ok (x, r) => (length r <= length b)%nat | Raise e => cb_error e end.
Proof. pose proof (take_decodes n b) as T. destruct (take n b) as [[x r]|[]]; try contradiction; [destruct T as [-> _]; rewrite app_length; lia|exact T]. Qed.
Lemma take_int_cb n b : match take_int n b with Ok (z, r) => (length r <= length b)%nat /\ 0 <= z < 256 ^ Z.of_nat n | Raise e => cb_error e end.
Proof. pose proof (take_int_decodes n b) as T. destruct (take_int n b) as [[x r]|[]]; try contradiction; auto. Qed.
Lemma cb_len_cb sub b : match cb_len sub b with Ok (_, r) => (length r <= length b)%nat | Raise e => cb_error e end.
Proof.
  unfold cb_len. repeat match goal with |- context [if ?c then _ else _] => destruct c end; try exact I; try lia;
    match goal with |- context [take_int ?n b] => pose proof (take_int_cb n b) as T; destruct (take_int n b) as [[z r]|e]; cbn [bind]; tauto end.
Qed.
Lemma cb_uint_cb sub b : match cb_uint sub b with Ok (_, r) => (length r <= length b)%nat | Raise e => cb_error e end.
Proof.
  unfold cb_uint. pose proof (cb_len_cb sub b) as T. destruct (cb_len sub b) as [[[z|] r]|e]; cbn [bind]; try exact T. exact I.
Qed.
Lemma cb_chunks_cb fuel major : forall b, (length b < fuel)%nat ->
  match cb_chunks fuel major b with Ok (_, r) => (length r <= length b)%nat | Raise e => cb_error e end.
Proof.
  induction fuel as [|f IH]; intros b L; [lia|]. destruct b as [|a r]; cbn [cb_chunks]; [exact I|]. cbn [length] in L.
  destruct (byte_Z a =? 255); [cbn; lia|]. destruct (byte_Z a / 32 =? major); [|exact I].
  pose proof (cb_uint_cb (byte_Z a mod 32) r) as T. destruct (cb_uint (byte_Z a mod 32) r) as [[z r1]|e]; cbn [bind]; [|exact T].
  pose proof (take_cb (Z.to_nat z) r1) as T1. destruct (take (Z.to_nat z) r1) as [[x r2]|e]; cbn [bind]; [|exact T1].
  destruct ((major =? 3) && negb (utf8_valid x)); [exact I|]. specialize (IH r2).
  destruct (cb_chunks f major r2) as [[y r3]|e]; cbn [bind]; [|apply IH; lia].
  cbn [length]. specialize (IH ltac:(lia)). lia.
Qed.
Lemma cb_string_cb fuel major sub b : (length b < fuel)%nat ->
  match cb_string fuel major sub b with Ok (_, r) => (length r <= length b)%nat | Raise e => cb_error e end.
Proof.
  intros L. unfold cb_string. pose proof (cb_len_cb sub b) as T. destruct (cb_len sub b) as [[[z|] r]|e]; cbn [bind]; [| |exact T].
  - pose proof (take_cb (Z.to_nat z) r) as T1. destruct (take (Z.to_nat z) r) as [[x r1]|e]; [lia|exact T1].
  - pose proof (cb_chunks_cb fuel major r ltac:(lia)) as T1. destruct (cb_chunks fuel major r) as [[x r1]|e]; [lia|exact T1].
Qed.

Section Decodes.
  Context (dec : bytes -> res (val * bytes)) (n : nat) (D : forall c, (length c <= n)%nat -> cb_decodes c (dec c)).
  Definition pv2 (kv : val * val) := everywhere python_value (fst kv) /\ everywhere python_value (snd kv).

  Lemma items_cb : forall k b, (length b <= n)%nat ->
    match mp_items dec k b with Ok (l, r) => (length r <= length b)%nat /\ Forall (everywhere python_value) l | Raise e => cb_error e end.
  Proof.
    intros k. induction k as [|k IH]; intros b L; cbn [mp_items]; [split; [lia|constructor]|].
    specialize (D b L) as Db. unfold cb_decodes in Db. destruct (dec b) as [[x r]|e]; cbn [bind]; [|exact Db].
    destruct Db as [Lr Px]. specialize (IH r). destruct (mp_items dec k r) as [[l r']|e]; cbn [bind].
    - destruct IH as [A B]; [lia|]. split; [lia|constructor; assumption].
    - apply IH. lia.
  Qed.
  Lemma pairs_cb : forall k d b, (length b <= n)%nat -> Forall pv2 d ->
    match cb_pairs dec k d b with Ok (d', r) => (length r <= length b)%nat /\ Forall pv2 d' | Raise e => cb_error e end.
  Proof.
    intros k. induction k as [|k IH]; intros d b L Hd; cbn [cb_pairs]; [split; [lia|assumption]|].
    specialize (D b L) as Db. unfold cb_decodes in Db. destruct (dec b) as [[x r]|e]; cbn [bind]; [|exact Db].
    destruct Db as [Lr Px]. assert (L' : (length r <= n)%nat) by lia. specialize (D r L') as Dr. unfold cb_decodes in Dr.
    destruct (dec r) as [[y r']|e]; cbn [bind]; [|exact Dr]. destruct Dr as [Lr' Py]. destruct (hashable x); [|exact I].
    specialize (IH (vset x y d) r'). destruct (cb_pairs dec k (vset x y d) r') as [[d' r'']|e].
    - destruct IH as [A B]; [lia|apply vset_all; assumption|]. split; [lia|assumption].
    - apply IH; [lia|apply vset_all; assumption].
  Qed.
  Lemma items_break_cb : forall k b, (length b <= n)%nat -> (length b < k)%nat ->
    match cb_items_break dec k b with Ok (l, r) => (length r <= length b)%nat /\ Forall (everywhere python_value) l | Raise e => cb_error e end.
  Proof.
    intros k. induction k as [|k IH]; intros b L K; [lia|]. destruct b as [|a b0]; cbn [cb_items_break]; [exact I|].
    destruct (byte_Z a =? 255); [split; [cbn; lia|constructor]|].
    specialize (D _ L) as Db. unfold cb_decodes in Db. destruct (dec (a :: b0)) as [[x r]|e]; cbn [bind]; [|exact Db].
    destruct Db as [Lr Px]. specialize (IH r). destruct (cb_items_break dec k r) as [[l r']|e]; cbn [bind].
    - destruct IH as [A B]; [lia|lia|]. split; [lia|constructor; assumption].
    - apply IH; lia.
  Qed.
  Lemma pairs_break_cb : forall k d b, (length b <= n)%nat -> (length b < k)%nat -> Forall pv2 d ->
    match cb_pairs_break dec k d b with Ok (d', r) => (length r <= length b)%nat /\ Forall pv2 d' | Raise e => cb_error e end.
  Proof.
    intros k. induction k as [|k IH]; intros d b L K Hd; [lia|]. destruct b as [|a b0]; cbn [cb_pairs_break]; [exact I|].
    destruct (byte_Z a =? 255); [split; [cbn; lia|assumption]|].
    specialize (D _ L) as Db. unfold cb_decodes in Db. destruct (dec (a :: b0)) as [[x r]|e]; cbn [bind]; [|exact Db].
    destruct Db as [Lr Px]. assert (L' : (length r <= n)%nat) by lia. specialize (D r L') as Dr. unfold cb_decodes in Dr.
    destruct (dec r) as [[y r']|e]; cbn [bind]; [|exact Dr]. destruct Dr as [Lr' Py]. destruct (hashable x); [|exact I].
    specialize (IH (vset x y d) r'). destruct (cb_pairs_break dec k (vset x y d) r') as [[d' r'']|e].
    - destruct IH as [A B]; [lia|lia|apply vset_all; assumption|]. split; [lia|assumption].
    - apply IH; [lia|lia|apply vset_all; assumption].
  Qed.
End Decodes.

Lemma cb_special_cb sub r b : (length r < length b)%nat -> cb_decodes b (cb_special sub r).
Proof.
  intros L. unfold cb_special. repeat match goal with |- context [if ?c then _ else _] => destruct c end; try exact I;
    try (split; [lia|split; exact I]).
  - pose proof (take_cb 1 r) as T. destruct (take 1 r) as [[z r']|e]; cbn [bind]; [|exact T]. split; [lia|split; exact I].
  - pose proof (take_int_cb 2 r) as T. destruct (take_int 2 r) as [[z r']|e]; cbn [bind]; [|exact T]. split; [lia|].
    split; [|exact I]. apply widen_range; [lia|lia|cbn; lia|]. rewrite pow2 in T. apply T.
  - pose proof (take_int_cb 4 r) as T. destruct (take_int 4 r) as [[z r']|e]; cbn [bind]; [|exact T]. split; [lia|].
    split; [|exact I]. apply widen_range; [lia|lia|cbn; lia|]. rewrite pow2 in T. apply T.
  - pose proof (take_int_cb 8 r) as T. destruct (take_int 8 r) as [[z r']|e]; cbn [bind]; [|exact T]. split; [lia|].
    split; [|exact I]. rewrite pow2 in T. apply T.
Qed.

Lemma cb_big_cb x neg b r : (length r < length b)%nat -> cb_decodes r x -> cb_decodes b (cb_big x neg).
Proof.
  intros L X. unfold cb_big. destruct x as [[v r']|e]; cbn [bind]; [|exact X]. destruct X as [X _].
  destruct v as [| | | | |[|a c]| | |]; try exact I. split; [lia|]. split; exact I.
Qed.

Lemma cb_dec_cb fuel : forall b, (length b < fuel)%nat -> cb_decodes b (cb_dec fuel b).
Proof.
  induction fuel as [|f IH]; intros b L; [lia|]. destruct b as [|a r]; [exact I|]. rewrite cb_dec_item. cbn [length] in L.
  assert (Lr : (length r < length (a :: r))%nat) by (cbn; lia).
  assert (D : forall c, (length c <= length r)%nat -> cb_decodes c (cb_dec f c)) by (intros; apply IH; lia).
  unfold cb_item. set (sub := byte_Z a mod 32).
  repeat match goal with |- context [if byte_Z a / 32 =? ?c then _ else _] => destruct (byte_Z a / 32 =? c) end.
  - pose proof (cb_uint_cb sub r) as T. destruct (cb_uint sub r) as [[z r']|e]; cbn [bind]; [|exact T]. split; [lia|split; exact I].
  - pose proof (cb_uint_cb sub r) as T. destruct (cb_uint sub r) as [[z r']|e]; cbn [bind]; [|exact T]. split; [lia|split; exact I].
  - pose proof (cb_string_cb (S (length r)) 2 sub r ltac:(lia)) as T. destruct (cb_string (S (length r)) 2 sub r) as [[z r']|e]; cbn [bind]; [|exact T]. split; [lia|split; exact I].
  - pose proof (cb_string_cb (S (length r)) 3 sub r ltac:(lia)) as T. destruct (cb_string (S (length r)) 3 sub r) as [[z r']|e]; cbn [bind]; [|exact T].
    destruct (utf8_valid z) eqn:U; [|exact I]. split; [lia|split; [|exact I]]. cbn [python_value]. rewrite encode_decode_str. apply utf8_valid_str. exact U.
  - pose proof (cb_len_cb sub r) as T. destruct (cb_len sub r) as [[[z|] r']|e]; cbn [bind]; [| |exact T].
    + pose proof (items_cb _ _ D (Z.to_nat z) r' ltac:(lia)) as T1. destruct (mp_items (cb_dec f) (Z.to_nat z) r') as [[l r'']|e]; cbn [bind]; [|exact T1].
      destruct T1. split; [lia|]. apply everywhere_list. split; [exact I|assumption].
    + pose proof (items_break_cb _ _ D (S (length r)) r' ltac:(lia) ltac:(lia)) as T1. destruct (cb_items_break (cb_dec f) (S (length r)) r') as [[l r'']|e]; cbn [bind]; [|exact T1].
      destruct T1. split; [lia|]. apply everywhere_list. split; [exact I|assumption].
  - pose proof (cb_len_cb sub r) as T. destruct (cb_len sub r) as [[[z|] r']|e]; cbn [bind]; [| |exact T].
    + pose proof (pairs_cb _ _ D (Z.to_nat z) [] r' ltac:(lia) (Forall_nil _)) as T1. destruct (cb_pairs (cb_dec f) (Z.to_nat z) [] r') as [[l r'']|e]; cbn [bind]; [|exact T1].
      destruct T1. split; [lia|]. apply everywhere_dict. split; [exact I|assumption].
    + pose proof (pairs_break_cb _ _ D (S (length r)) [] r' ltac:(lia) ltac:(lia) (Forall_nil _)) as T1. destruct (cb_pairs_break (cb_dec f) (S (length r)) [] r') as [[l r'']|e]; cbn [bind]; [|exact T1].
      destruct T1. split; [lia|]. apply everywhere_dict. split; [exact I|assumption].
  - pose proof (cb_uint_cb sub r) as T. destruct (cb_uint sub r) as [[z r']|e]; cbn [bind]; [|exact T].
    destruct (z =? 2); [|destruct (z =? 3); [|exact I]]; (eapply cb_big_cb; [|apply D; lia]; cbn; lia).
  - apply cb_special_cb; exact Lr.
Qed.

(** On any octets [loads] returns a Python value or raises a CBORDecodeError (or is outside the model). *)
Lemma cb_loads_total b : (exists v, cb_loads b = Ok v /\ everywhere python_value v) \/ (exists m, cb_loads b = Raise (CodecError m)) \/
  cb_loads b = Raise ModelGap.
Proof.
  unfold cb_loads, cb_loads_within. pose proof (cb_dec_cb (S (length b)) b ltac:(lia)) as T. destruct (cb_dec (S (length b)) b) as [[v r]|e]; cbn [bind].
  - left. exists v. split; [reflexivity|apply T].
  - destruct e; try contradiction; eauto.
Qed.
