(** * EncodingFacts: hex and base64 round trips. *)
From Coq Require Import String Ascii List ZArith Bool Lia ZifyBool ZifyNat.
From Verif Require Import PyBase Rawsocket BitFacts Encoding.
Import ListNotations.
Local Open Scope Z_scope.
Ltac Zify.zify_post_hook ::= Z.div_mod_to_equations.

Lemma byte_Z_of z : 0 <= z < 256 -> byte_Z (byte_of z) = z.
Proof. apply byte_of_Z. Qed.
Lemma byte_of_Z' a : byte_of (byte_Z a) = a.
Proof. apply byte_to_ascii. Qed.

Lemma encode_decode_str b : encode_str (decode_str b) = b.
Proof. apply list_ascii_of_string_of_list_ascii. Qed.
Lemma decode_encode_str s : decode_str (encode_str s) = s.
Proof. apply string_of_list_ascii_of_string. Qed.
Lemma encode_str_app s t : encode_str (s ++ t)%string = encode_str s ++ encode_str t.
Proof. unfold encode_str. induction s; cbn; [reflexivity|]. f_equal. exact IHs. Qed.

Lemma Z_range_in n : forall k, 0 <= k < Z.of_nat n -> In k (map Z.of_nat (seq 0 n)).
Proof. intros k H. apply in_map_iff. exists (Z.to_nat k). rewrite in_seq. lia. Qed.

Lemma hex_digit_value z : 0 <= z < 16 -> hex_value (hex_digit z) = Some z /\ byte_Z (hex_digit z) < 128.
Proof.
  intros H.
  assert (A : forallb (fun z => match hex_value (hex_digit z) with Some x => (x =? z) | None => false end &&
      (byte_Z (hex_digit z) <? 128)) (map Z.of_nat (seq 0 16)) = true) by (vm_compute; reflexivity).
  rewrite forallb_forall in A. specialize (A z (Z_range_in 16 z H)).
  destruct (hex_value (hex_digit z)) as [x|]; [|discriminate]. apply andb_prop in A. destruct A as [A B].
  apply Z.eqb_eq in A. subst. split; [reflexivity|]. lia.
Qed.

Lemma hexlify_length b : length (hexlify b) = (2 * length b)%nat.
Proof. induction b; cbn [hexlify length]; lia. Qed.
Lemma hexlify_app a b : hexlify (a ++ b) = hexlify a ++ hexlify b.
Proof. induction a; cbn [hexlify app]; [reflexivity|]. rewrite IHa. reflexivity. Qed.

Lemma unhex_hexlify b : unhex_pairs (hexlify b) = Some b.
Proof.
  induction b as [|x b IH]; [reflexivity|]. cbn [hexlify unhex_pairs].
  pose proof (byte_range x).
  rewrite (proj1 (hex_digit_value (byte_Z x / 16) ltac:(lia))), (proj1 (hex_digit_value (byte_Z x mod 16) ltac:(lia))), IH.
  replace (16 * (byte_Z x / 16) + byte_Z x mod 16) with (byte_Z x) by lia. rewrite byte_of_Z'. reflexivity.
Qed.
Lemma hexlify_ascii b : is_ascii (hexlify b) = true.
Proof.
  unfold is_ascii. induction b as [|x b IH]; [reflexivity|]. cbn [hexlify forallb]. pose proof (byte_range x).
  pose proof (hex_digit_value (byte_Z x / 16) ltac:(lia)) as [_ A].
  pose proof (hex_digit_value (byte_Z x mod 16) ltac:(lia)) as [_ B]. rewrite IH. lia.
Qed.

Lemma odd_double n : Nat.odd (2 * n) = false.
Proof. rewrite Nat.odd_mul. reflexivity. Qed.

Lemma unhexlify_bytes_hexlify b : unhexlify_bytes (hexlify b) = Ok b.
Proof. unfold unhexlify_bytes. rewrite hexlify_length, odd_double, unhex_hexlify. reflexivity. Qed.
Lemma unhexlify_hexlify b : unhexlify_str (decode_str (hexlify b)) = Ok b.
Proof. unfold unhexlify_str. rewrite encode_decode_str, hexlify_ascii. apply unhexlify_bytes_hexlify. Qed.

Lemma unhex_pairs_app a b : Nat.odd (length a) = false -> forall ra, unhex_pairs a = Some ra ->
  unhex_pairs (a ++ b) = match unhex_pairs b with Some rb => Some (ra ++ rb) | None => None end.
Proof.
  intros Ha. remember (length a) as n. revert a Heqn Ha. induction n as [n IH] using lt_wf_ind.
  intros a -> Ha ra H. destruct a as [|x [|y a]].
  - injection H as <-. cbn. destruct (unhex_pairs b); reflexivity.
  - discriminate Ha.
  - cbn [unhex_pairs app] in *. destruct (hex_value x) as [vx|]; [|discriminate].
    destruct (hex_value y) as [vy|]; [|discriminate].
    destruct (unhex_pairs a) as [r|] eqn:E; [|discriminate]. injection H as <-.
    rewrite (IH (length a)) with (ra := r); auto; [|cbn; lia].
    destruct (unhex_pairs b); reflexivity.
Qed.

Lemma is_ascii_app a b : is_ascii (a ++ b) = is_ascii a && is_ascii b.
Proof. apply forallb_app. Qed.

Lemma unhexlify_str_app s t a b : unhexlify_str s = Ok a -> unhexlify_str t = Ok b ->
  unhexlify_str (s ++ t)%string = Ok (a ++ b).
Proof.
  unfold unhexlify_str, unhexlify_bytes. rewrite encode_str_app, is_ascii_app.
  destruct (is_ascii (encode_str s)); [|discriminate]. destruct (is_ascii (encode_str t)); [|discriminate].
  rewrite app_length, Nat.odd_add. cbn [andb].
  destruct (Nat.odd (length (encode_str s))) eqn:Os; [discriminate|].
  destruct (Nat.odd (length (encode_str t))) eqn:Ot; [discriminate|]. cbn [xorb].
  destruct (unhex_pairs (encode_str s)) as [rs|] eqn:Es; [|discriminate]. intros H. injection H as ->.
  destruct (unhex_pairs (encode_str t)) as [rt|] eqn:Et; [|discriminate]. intros H. injection H as ->.
  rewrite (unhex_pairs_app _ _ Os _ Es), Et. reflexivity.
Qed.

(** base64 *)
Lemma b64_char_value z : 0 <= z < 64 ->
  b64_value (b64_char z) = Some z /\ Ascii.eqb (b64_char z) pad_char = false /\ byte_Z (b64_char z) < 128.
Proof.
  intros H.
  assert (A : forallb (fun z => match b64_value (b64_char z) with Some x => (x =? z) | None => false end &&
      negb (Ascii.eqb (b64_char z) pad_char) && (byte_Z (b64_char z) <? 128)) (map Z.of_nat (seq 0 64)) = true)
    by (vm_compute; reflexivity).
  rewrite forallb_forall in A. specialize (A z (Z_range_in 64 z H)).
  destruct (b64_value (b64_char z)) as [x|]; [|discriminate]. apply andb_prop in A. destruct A as [A C].
  apply andb_prop in A. destruct A as [A B].
  apply Z.eqb_eq in A. subst. split; [reflexivity|]. split; [|lia]. destruct (Ascii.eqb _ _); [discriminate|reflexivity].
Qed.

Lemma a2b_step z s q left pads : 0 <= z < 64 ->
  a2b_base64 (b64_char z :: s) q left pads =
    match q with
    | 0%nat => a2b_base64 s 1 z 0
    | 1%nat => let! r := a2b_base64 s 2 (z mod 16) 0 in Ok (byte_of (left * 4 + z / 16) :: r)
    | 2%nat => let! r := a2b_base64 s 3 (z mod 4) 0 in Ok (byte_of (left * 16 + z / 4) :: r)
    | _ => let! r := a2b_base64 s 0 0 0 in Ok (byte_of (left * 64 + z) :: r)
    end.
Proof.
  intros H. cbn [a2b_base64]. destruct (b64_char_value z H) as (-> & -> & _). reflexivity.
Qed.

Lemma b64_round_trip_raw b : a2b_base64 (b64encode b) 0 0 0 = Ok b.
Proof.
  remember (length b) as n. revert b Heqn. induction n as [n IH] using lt_wf_ind. intros b ->.
  destruct b as [|x [|y [|z b]]]; cbn [b64encode]; [reflexivity| | |];
    pose proof (byte_range x); try pose proof (byte_range y); try pose proof (byte_range z).
  - rewrite a2b_step by lia. rewrite a2b_step by lia. cbn [a2b_base64 Ascii.eqb pad_char Bool.eqb Nat.leb Nat.add bind].
    do 2 f_equal. replace (byte_Z x / 4 * 4 + byte_Z x mod 4 * 16 / 16) with (byte_Z x) by lia. apply byte_of_Z'.
  - do 3 rewrite a2b_step by lia. cbn [a2b_base64 Ascii.eqb pad_char Bool.eqb Nat.leb Nat.add bind].
    do 2 f_equal; [|f_equal].
    + replace (_ + _) with (byte_Z x) by lia. apply byte_of_Z'.
    + replace (_ + _) with (byte_Z y) by lia. apply byte_of_Z'.
  - do 4 rewrite a2b_step by lia. rewrite (IH (length b)) by (cbn; lia || reflexivity). cbn [bind].
    do 2 f_equal; [|f_equal; [|f_equal]].
    + replace (_ + _) with (byte_Z x) by lia. apply byte_of_Z'.
    + replace (_ + _) with (byte_Z y) by lia. apply byte_of_Z'.
    + replace (_ + _) with (byte_Z z) by lia. apply byte_of_Z'.
Qed.

Lemma b64encode_ascii b : is_ascii (b64encode b) = true.
Proof.
  unfold is_ascii. remember (length b) as n. revert b Heqn. induction n as [n IH] using lt_wf_ind. intros b ->.
  assert (A : forall z, 0 <= z < 64 -> (byte_Z (b64_char z) <? 128) = true).
  { intros z H. destruct (b64_char_value z H) as (_ & _ & X). lia. }
  destruct b as [|x [|y [|z b]]]; cbn [b64encode forallb]; [reflexivity| | |];
    pose proof (byte_range x); try pose proof (byte_range y); try pose proof (byte_range z);
    rewrite ?A by lia; try reflexivity.
  rewrite (IH (length b)) by (cbn; lia || reflexivity). reflexivity.
Qed.

Lemma b64_round_trip b : b64decode_str (decode_str (b64encode b)) = Ok b.
Proof. unfold b64decode_str. rewrite encode_decode_str, b64encode_ascii. apply b64_round_trip_raw. Qed.

(** [b64decode] raises only [ValueError] (non-ASCII) or [binascii.Error]. *)
Lemma a2b_error s q left pads e : a2b_base64 s q left pads = Raise e -> exists m, e = BinasciiError m.
Proof.
  revert q left pads. induction s as [|ch s IH]; intros q left pads; cbn [a2b_base64].
  - destruct q as [|[|q]]; intros H; try discriminate; injection H as <-; eauto.
  - destruct (Ascii.eqb ch pad_char).
    + destruct (2 <=? q)%nat; [destruct (4 <=? q + S pads)%nat; [discriminate|]|]; apply IH.
    + destruct (b64_value ch) as [v|]; [|apply IH].
      destruct q as [|[|[|q]]]; [apply IH| | |];
        (match goal with |- context [a2b_base64 ?a ?b ?c ?d] => destruct (a2b_base64 a b c d) eqn:E end;
         cbn [bind]; [discriminate|intros H; injection H as <-; eapply IH; eauto]).
Qed.
