(** * Utf8Facts: lemmas about Utf8. *)
From Coq Require Import String Ascii List ZArith Bool Lia.
From Verif Require Import PyBase Rawsocket Encoding BitFacts EncodingFacts Utf8.
Import ListNotations.
Local Open Scope Z_scope.
Ltac Zify.zify_post_hook ::= Z.div_mod_to_equations.

Lemma bool_split (b : bool) : b = true \/ b = false. Proof. destruct b; auto. Qed.

Ltac bdestruct_all :=
  repeat match goal with
  | |- context [?a <? ?b] => destruct (Z.ltb_spec a b); try lia
  | |- context [?a <=? ?b] => destruct (Z.leb_spec a b); try lia
  end.

(** For any choice of allowed code points. *)
Section Points.
Variable ok : Z -> bool.
Hypothesis ok_code : forall p, ok p = true -> 0 <= p <= 1114111.
Hypothesis ok_short : forall p, 0 <= p < 2048 -> ok p = true.

Lemma points_char p r : ok p = true -> decode_points ok (utf8_char p ++ r) = cons_opt p (decode_points ok r).
Proof.
  intros Hs. pose proof (ok_code p Hs) as Hp.
  unfold utf8_char. destruct (Z.ltb_spec p 128).
  - cbn [app decode_points]. rewrite byte_Z_of by lia. destruct (Z.ltb_spec p 128); [reflexivity|lia].
  - destruct (Z.ltb_spec p 2048).
    + cbn [app decode_points]. unfold cont. rewrite !byte_Z_of by lia. bdestruct_all. cbn [andb negb].
      replace (64 * (192 + p / 64 - 192) + (128 + p mod 64 - 128)) with p by lia. reflexivity.
    + destruct (Z.ltb_spec p 65536).
      * cbn [app decode_points]. unfold cont. rewrite !byte_Z_of by lia.
        replace (4096 * (224 + p / 4096 - 224) + 64 * (128 + p / 64 mod 64 - 128) + (128 + p mod 64 - 128)) with p by lia.
        rewrite Hs. bdestruct_all. reflexivity.
      * cbn [app decode_points]. unfold cont. rewrite !byte_Z_of by lia.
        replace (262144 * (240 + p / 262144 - 240) + 4096 * (128 + p / 4096 mod 64 - 128) + 64 * (128 + p / 64 mod 64 - 128) + (128 + p mod 64 - 128)) with p by lia.
        rewrite Hs. bdestruct_all. reflexivity.
Qed.

Lemma points_encode ps : forallb ok ps = true -> decode_points ok (utf8_encode ps) = Some ps.
Proof.
  induction ps as [|p ps IH]; intros H; [reflexivity|]. cbn [forallb] in H. apply andb_true_iff in H. destruct H as [H1 H2].
  cbn [utf8_encode flat_map]. rewrite points_char by exact H1. fold (utf8_encode ps). rewrite IH by exact H2. reflexivity.
Qed.

Lemma byte_of_eq a z : byte_Z a = z -> byte_of z = a.
Proof. intros <-. apply byte_of_Z'. Qed.

Lemma cons_opt_Some {A} (x : A) o l : cons_opt x o = Some l -> exists l', o = Some l' /\ l = x :: l'.
Proof. destruct o; cbn; [intros [= <-]; eauto|discriminate]. Qed.

Lemma encode_points_aux n : forall b ps, (length b <= n)%nat -> decode_points ok b = Some ps ->
  utf8_encode ps = b /\ forallb ok ps = true.
Proof.
  induction n as [|n IH]; intros b ps Hl H.
  { destruct b; [|cbn in Hl; lia]. injection H as <-. auto. }
  destruct b as [|x b1]; [injection H as <-; auto|]. cbn [decode_points] in H. cbn [length] in Hl. pose proof (byte_range x).
  destruct (Z.ltb_spec (byte_Z x) 128).
  { apply cons_opt_Some in H. destruct H as (l & H & ->). apply IH in H; [|lia]. destruct H as [Ha Hb].
    cbn [utf8_encode flat_map forallb]. fold (utf8_encode l). rewrite Ha, Hb, andb_true_r, ok_short by lia. unfold utf8_char. bdestruct_all.
    cbn [app andb orb]. rewrite (byte_of_eq x) by reflexivity. auto. }
  destruct b1 as [|y b2]; [discriminate|]. cbn [length] in Hl. pose proof (byte_range y). unfold cont in H.
  destruct (Z.leb_spec 128 (byte_Z y)); [|discriminate]. destruct (Z.ltb_spec (byte_Z y) 192); [|discriminate]. cbn [andb negb] in H.
  destruct ((194 <=? byte_Z x) && (byte_Z x <? 224)) eqn:E2.
  { apply andb_true_iff in E2. apply cons_opt_Some in H. destruct H as (l & H & ->). apply IH in H; [|lia]. destruct H as [Ha Hb].
    set (p := 64 * (byte_Z x - 192) + (byte_Z y - 128)) in *.
    cbn [utf8_encode flat_map forallb]. fold (utf8_encode l). rewrite Ha, Hb, andb_true_r, ok_short by lia. unfold utf8_char. bdestruct_all.
    cbn [app andb orb]. rewrite (byte_of_eq x) by lia. rewrite (byte_of_eq y) by lia. auto. }
  destruct b2 as [|z b3]; [discriminate|]. cbn [length] in Hl. pose proof (byte_range z).
  destruct (Z.leb_spec 128 (byte_Z z)); [|discriminate]. destruct (Z.ltb_spec (byte_Z z) 192); [|discriminate]. cbn [andb negb] in H.
  destruct ((224 <=? byte_Z x) && (byte_Z x <? 240)) eqn:E3.
  { apply andb_true_iff in E3. set (p := 4096 * (byte_Z x - 224) + 64 * (byte_Z y - 128) + (byte_Z z - 128)) in *.
    destruct (Z.leb_spec 2048 p); [|discriminate]. destruct (ok p) eqn:Sp; [|discriminate]. cbn [andb] in H.
    apply cons_opt_Some in H. destruct H as (l & H & ->). apply IH in H; [|lia]. destruct H as [Ha Hb].
    cbn [utf8_encode flat_map forallb]. fold (utf8_encode l). rewrite Ha, Hb, Sp. unfold utf8_char. bdestruct_all.
    cbn [app andb orb]. rewrite (byte_of_eq x) by lia. rewrite (byte_of_eq y) by lia. rewrite (byte_of_eq z) by lia. auto. }
  destruct b3 as [|w b4]; [discriminate|]. cbn [length] in Hl. pose proof (byte_range w).
  set (p := 262144 * (byte_Z x - 240) + 4096 * (byte_Z y - 128) + 64 * (byte_Z z - 128) + (byte_Z w - 128)) in *.
  destruct (Z.leb_spec 128 (byte_Z w)); [|discriminate]. destruct (Z.ltb_spec (byte_Z w) 192); [|discriminate]. cbn [andb negb] in H.
  destruct (Z.leb_spec 240 (byte_Z x)); [|discriminate]. destruct (Z.leb_spec 65536 p); [|discriminate]. destruct (ok p) eqn:Sp; [|discriminate].
  cbn [andb] in H. apply cons_opt_Some in H. destruct H as (l & H & ->). apply IH in H; [|lia]. destruct H as [Ha Hb].
  cbn [utf8_encode flat_map forallb]. fold (utf8_encode l). rewrite Ha, Hb, Sp. unfold utf8_char. bdestruct_all.
  assert (Hp : p <= 1114111) by (apply ok_code in Sp; lia).
  cbn [app andb orb]. rewrite (byte_of_eq x) by lia. rewrite (byte_of_eq y) by lia. rewrite (byte_of_eq z) by lia. rewrite (byte_of_eq w) by lia. auto.
Qed.

Lemma encode_points b ps : decode_points ok b = Some ps -> utf8_encode ps = b /\ forallb ok ps = true.
Proof. apply (encode_points_aux (length b)). lia. Qed.

Lemma points_app b t s : decode_points ok b = Some t ->
  decode_points ok (b ++ s) = match decode_points ok s with Some u => Some (t ++ u) | None => None end.
Proof.
  intros H. apply encode_points in H. destruct H as [<- H]. induction t as [|p t IH].
  - cbn. destruct (decode_points ok s); reflexivity.
  - cbn [forallb] in H. apply andb_true_iff in H. destruct H as [P H]. cbn [utf8_encode flat_map]. rewrite <- app_assoc.
    rewrite points_char by exact P. fold (utf8_encode t). rewrite (IH H). destruct (decode_points ok s); reflexivity.
Qed.
End Points.

Lemma scalar_code p : is_scalar p = true -> 0 <= p <= 1114111.
Proof. unfold is_scalar. intros H. apply orb_true_iff in H. rewrite !andb_true_iff in H. lia. Qed.
Lemma scalar_short p : 0 <= p < 2048 -> is_scalar p = true.
Proof. intros H. unfold is_scalar. lia. Qed.
Lemma code_code p : is_code p = true -> 0 <= p <= 1114111.
Proof. unfold is_code. intros H. apply andb_true_iff in H. lia. Qed.
Lemma code_short p : 0 <= p < 2048 -> is_code p = true.
Proof. intros H. unfold is_code. lia. Qed.
Lemma scalar_is_code p : is_scalar p = true -> is_code p = true.
Proof. intros H. apply scalar_code in H. unfold is_code. lia. Qed.

Lemma utf8_decode_encode ps : forallb is_scalar ps = true -> utf8_decode (utf8_encode ps) = Some ps.
Proof. exact (points_encode is_scalar scalar_code scalar_short ps). Qed.
Lemma utf8_encode_decode b ps : utf8_decode b = Some ps -> utf8_encode ps = b /\ forallb is_scalar ps = true.
Proof. exact (encode_points is_scalar scalar_code scalar_short b ps). Qed.
Lemma str_points_encode ps : forallb is_code ps = true -> str_points (utf8_encode ps) = Some ps.
Proof. exact (points_encode is_code code_code code_short ps). Qed.
Lemma encode_str_points b ps : str_points b = Some ps -> utf8_encode ps = b /\ forallb is_code ps = true.
Proof. exact (encode_points is_code code_code code_short b ps). Qed.
Lemma str_points_app b t s : str_points b = Some t -> str_points (b ++ s) = match str_points s with Some u => Some (t ++ u) | None => None end.
Proof. exact (points_app is_code code_code code_short b t s). Qed.

(** Strict UTF-8 is the same text, without surrogates. *)
Lemma utf8_str_points b ps : utf8_decode b = Some ps -> str_points b = Some ps.
Proof.
  intros H. apply utf8_encode_decode in H. destruct H as [<- H]. apply str_points_encode. apply forallb_forall. intros p P.
  apply scalar_is_code. exact (proj1 (forallb_forall _ _) H p P).
Qed.
Lemma utf8_valid_str b : utf8_valid b = true -> is_str b = true.
Proof. unfold utf8_valid, is_str. destruct (utf8_decode b) as [ps|] eqn:E; [|discriminate]. rewrite (utf8_str_points _ _ E). reflexivity. Qed.

Lemma scalar_not_high p : is_scalar p = true -> is_high p = false.
Proof. unfold is_scalar, is_high. lia. Qed.
Lemma scalar_not_low p : is_scalar p = true -> is_low p = false.
Proof. unfold is_scalar, is_low. lia. Qed.
Lemma no_pair_cons p ps : no_pair (p :: ps) = true <-> no_pair ps = true /\ (is_high p = true -> match ps with q :: _ => is_low q = false | [] => True end).
Proof.
  destruct ps as [|q ps]; [cbn; tauto|]. cbn [no_pair]. fold (no_pair (q :: ps)). rewrite andb_true_iff, negb_true_iff.
  destruct (is_high p), (is_low q); cbn; intuition congruence.
Qed.
Lemma scalar_no_pair ps : forallb is_scalar ps = true -> no_pair ps = true.
Proof.
  induction ps as [|p ps IH]; [reflexivity|]. cbn [forallb]. intros H. apply andb_true_iff in H. destruct H as [P H].
  apply no_pair_cons. split; [exact (IH H)|]. rewrite (scalar_not_high p P). discriminate.
Qed.

(** ** Big-endian integers *)
Lemma to_be_length n z : length (to_be n z) = n.
Proof. induction n; cbn [to_be length]; congruence. Qed.

Lemma of_be_app b c : of_be (b ++ c) = of_be b * 256 ^ Z.of_nat (length c) + of_be c.
Proof.
  unfold of_be. rewrite fold_left_app. generalize (fold_left (fun acc a => 256 * acc + byte_Z a) b 0). intros x.
  revert x. induction c as [|a c IH]; intros x; cbn [fold_left length]; [rewrite Z.mul_1_r; lia|].
  rewrite IH. rewrite (IH (256 * 0 + byte_Z a)). rewrite Nat2Z.inj_succ, Z.pow_succ_r by lia. lia.
Qed.

Lemma of_be_cons a b : of_be (a :: b) = byte_Z a * 256 ^ Z.of_nat (length b) + of_be b.
Proof. change (a :: b) with ([a] ++ b). rewrite of_be_app. unfold of_be at 1. cbn [fold_left]. lia. Qed.

Lemma of_be_to_be n z : 0 <= z < 256 ^ Z.of_nat n -> of_be (to_be n z) = z.
Proof.
  assert (G : forall n, of_be (to_be n z) = z mod 256 ^ Z.of_nat n).
  { clear. induction n as [|n IH]; [cbn; rewrite Z.mod_1_r; reflexivity|].
    cbn [to_be]. rewrite of_be_cons, to_be_length, IH. rewrite byte_Z_of by lia.
    rewrite Nat2Z.inj_succ, Z.pow_succ_r by lia. rewrite (Z.mul_comm 256). rewrite Z.rem_mul_r by lia. lia. }
  intros H. rewrite G. apply Z.mod_small. exact H.
Qed.

Lemma of_be_range b : 0 <= of_be b < 256 ^ Z.of_nat (length b).
Proof.
  induction b as [|a b IH]; [cbn; lia|]. rewrite of_be_cons. cbn [length]. rewrite Nat2Z.inj_succ, Z.pow_succ_r by lia.
  pose proof (byte_range a). nia.
Qed.

Lemma take_app b r : take (length b) (b ++ r) = Ok (b, r).
Proof.
  unfold take. rewrite app_length. destruct (Nat.leb_spec (length b) (length b + length r)); [|lia].
  rewrite firstn_app, firstn_all, Nat.sub_diag, firstn_O, app_nil_r. rewrite skipn_app, skipn_all, Nat.sub_diag. reflexivity.
Qed.

Lemma take_int_be n z r : 0 <= z < 256 ^ Z.of_nat n -> take_int n (to_be n z ++ r) = Ok (z, r).
Proof.
  intros H. unfold take_int. pose proof (take_app (to_be n z) r) as T. rewrite to_be_length in T. rewrite T. cbn [bind].
  rewrite of_be_to_be by exact H. reflexivity.
Qed.

Lemma take_inv n b x r : take n b = Ok (x, r) -> b = x ++ r /\ length x = n.
Proof.
  unfold take. destruct (Nat.leb_spec n (length b)); [|discriminate]. intros [= <- <-]. rewrite firstn_skipn. rewrite firstn_length_le; auto.
Qed.
