(** * Base64Facts: hex and base64 (Encoding.v) do what RFC 4648 says.  Proofs only. *)
From Coq Require Import String Ascii List ZArith NArith Bool Lia.
From Verif Require Import PyBase Rawsocket Encoding EncodingFacts SpecBase64.
Import ListNotations.
Local Open Scope Z_scope.

Ltac zdm := Z.div_mod_to_equations; lia.
Lemma number_byte a : number a = byte_Z a.
Proof. reflexivity. Qed.
Lemma octet_byte z : octet z = byte_of z.
Proof. reflexivity. Qed.
Lemma byte_bound a : 0 <= byte_Z a < 256.
Proof. unfold byte_Z. pose proof (N_ascii_bounded a). lia. Qed.
Definition all_ascii : list ascii := map (fun k => ascii_of_N (N.of_nat k)) (seq 0 256).
Lemma all_ascii_in a : In a all_ascii.
Proof.
  unfold all_ascii. apply in_map_iff. exists (N.to_nat (N_of_ascii a)). rewrite N2Nat.id, ascii_N_embedding. split; [reflexivity|].
  apply in_seq. pose proof (N_ascii_bounded a). lia.
Qed.
Lemma by_cases (P : ascii -> bool) : forallb P all_ascii = true -> forall a, P a = true.
Proof. intros H a. rewrite forallb_forall in H. apply H, all_ascii_in. Qed.

(** ** Hex *)
Lemma hexlify_text b : hexlify b = hex_text b.
Proof.
  induction b as [|a b IH]; [reflexivity|]. cbn [hexlify hex_text flat_map]. fold (hex_text b). rewrite <- IH.
  assert (E : (Ascii.eqb (hex_digit (byte_Z a / 16)) (nth (Z.to_nat (number a / 16)) HEX "?"%char) && Ascii.eqb (hex_digit (byte_Z a mod 16)) (nth (Z.to_nat (number a mod 16)) HEX "?"%char)) = true).
  { revert a. apply by_cases. vm_compute. reflexivity. }
  apply andb_prop in E. destruct E as [E1 E2]. apply Ascii.eqb_eq in E1, E2. rewrite E1, E2. reflexivity.
Qed.
Definition hex_ok (a : ascii) : bool :=
  match hex_value a with
  | Some v => (0 <=? v) && (v <? 16) && Ascii.eqb (lower a) (nth (Z.to_nat v) HEX "?"%char) && (byte_Z a <? 128)
  | None => negb (existsb (Ascii.eqb (lower a)) HEX)
  end.
Lemma hex_ok_all a : hex_ok a = true.
Proof. revert a. apply by_cases. vm_compute. reflexivity. Qed.
Lemma hex_some a v : hex_value a = Some v <-> 0 <= v < 16 /\ lower a = nth (Z.to_nat v) HEX "?"%char.
Proof.
  pose proof (hex_ok_all a) as H. unfold hex_ok in H. destruct (hex_value a) as [w|].
  - rewrite !andb_true_iff, Z.leb_le, Z.ltb_lt, Ascii.eqb_eq in H. destruct H as (((A & B) & C) & _). split; [intros E; injection E as <-; auto|].
    intros [D E]. rewrite C in E. f_equal. assert (I0 : Z.to_nat w = Z.to_nat v).
    { assert (N : NoDup HEX) by (vm_compute; repeat constructor; cbn; intuition discriminate). rewrite NoDup_nth in N. apply (N (Z.to_nat w) (Z.to_nat v)); cbn; try lia. exact E. }
    lia.
  - split; [discriminate|]. intros [D E]. exfalso. apply negb_true_iff in H. assert (X : existsb (Ascii.eqb (lower a)) HEX = true); [|congruence].
    apply existsb_exists. exists (lower a). split; [rewrite E; apply nth_In; cbn; lia|apply Ascii.eqb_refl].
Qed.
Lemma hex_ascii a v : hex_value a = Some v -> byte_Z a <? 128 = true.
Proof. pose proof (hex_ok_all a) as H. unfold hex_ok in H. destruct (hex_value a); [|discriminate]. rewrite !andb_true_iff in H. intros _. tauto. Qed.
Lemma unhex_text s b : unhex_pairs s = Some b <-> map lower s = hex_text b.
Proof.
  revert s. assert (H : forall n s, length s = n -> forall b, unhex_pairs s = Some b <-> map lower s = hex_text b).
  2: { intros s. exact (H _ s eq_refl b). }
  induction n as [n IH] using lt_wf_ind. intros s L b'. destruct s as [|x [|y s]].
  - cbn. split; [intros E; injection E as <-; reflexivity|]. destruct b'; [reflexivity|discriminate].
  - cbn. split; [discriminate|]. destruct b'; discriminate.
  - cbn [unhex_pairs map]. cbn [length] in L. specialize (IH (length s) ltac:(lia) s eq_refl). split.
    + destruct (hex_value x) as [vx|] eqn:X; [|discriminate]. destruct (hex_value y) as [vy|] eqn:Y; [|discriminate]. destruct (unhex_pairs s) as [r|]; [|discriminate].
      intros E. assert (b' = byte_of (16 * vx + vy) :: r) as -> by congruence. clear E. cbn [hex_text flat_map hex_pair app]. apply hex_some in X, Y. destruct X as [X1 X2], Y as [Y1 Y2]. rewrite X2, Y2. rewrite number_byte, byte_Z_of by lia.
      replace ((16 * vx + vy) / 16) with vx by zdm. replace ((16 * vx + vy) mod 16) with vy by zdm. do 2 f_equal. apply IH. reflexivity.
    + destruct b' as [|a b']; [discriminate|]. cbn [hex_text flat_map hex_pair app]. intros E. injection E as E1 E2 E3. rewrite number_byte in *. pose proof (byte_bound a).
      assert (X : hex_value x = Some (byte_Z a / 16)) by (apply hex_some; split; [zdm|exact E1]).
      assert (Y : hex_value y = Some (byte_Z a mod 16)) by (apply hex_some; split; [zdm|exact E2]).
      apply IH in E3. rewrite X, Y, E3. f_equal. f_equal. rewrite <- Z.div_mod by lia. apply byte_of_Z'.
Qed.
Lemma unhex_ascii s b : unhex_pairs s = Some b -> is_ascii s = true /\ Nat.odd (length s) = false.
Proof.
  revert b. assert (H : forall n s, length s = n -> forall b, unhex_pairs s = Some b -> is_ascii s = true /\ Nat.odd (length s) = false).
  2: { exact (H _ s eq_refl). }
  induction n as [n IH] using lt_wf_ind. clear s. intros s L b. destruct s as [|x [|y s]]; [auto|discriminate|]. cbn [unhex_pairs].
  destruct (hex_value x) as [vx|] eqn:X; [|discriminate]. destruct (hex_value y) as [vy|] eqn:Y; [|discriminate]. destruct (unhex_pairs s) as [r|] eqn:R; [|discriminate]. intros _.
  cbn [length] in L. destruct (IH (length s) ltac:(lia) s eq_refl r R) as [A B]. split; [|cbn [length]; rewrite Nat.odd_succ, Nat.even_succ; exact B].
  unfold is_ascii in *. cbn [forallb]. rewrite (hex_ascii _ _ X), (hex_ascii _ _ Y), A. reflexivity.
Qed.
Theorem unhexlify_iff s b : unhexlify_str s = Ok b <-> map lower (chars s) = hex_text b.
Proof.
  rewrite <- unhex_text. unfold unhexlify_str, unhexlify_bytes, encode_str, chars. set (t := list_ascii_of_string s). split.
  - destruct (is_ascii t); [|discriminate]. destruct (Nat.odd (length t)); [discriminate|]. destruct (unhex_pairs t); [|discriminate]. intros E. injection E as ->. reflexivity.
  - intros E. destruct (unhex_ascii _ _ E) as [A B]. rewrite A, B, E. reflexivity.
Qed.
Theorem unhexlify_bytes_iff s b : unhexlify_bytes s = Ok b <-> map lower s = hex_text b.
Proof.
  rewrite <- unhex_text. unfold unhexlify_bytes. split.
  - destruct (Nat.odd (length s)); [discriminate|]. destruct (unhex_pairs s); [|discriminate]. intros E. injection E as ->. reflexivity.
  - intros E. destruct (unhex_ascii _ _ E) as [A B]. rewrite B, E. reflexivity.
Qed.

(** ** base64 *)
Lemma letter_char v : 0 <= v < 64 -> letter v = b64_char v.
Proof.
  intros V. assert (H : forallb (fun k => Ascii.eqb (letter (Z.of_nat k)) (b64_char (Z.of_nat k))) (seq 0 64) = true) by (vm_compute; reflexivity).
  rewrite forallb_forall in H. specialize (H (Z.to_nat v) ltac:(apply in_seq; lia)). rewrite Z2Nat.id in H by lia. apply Ascii.eqb_eq, H.
Qed.
Lemma value_index a : b64_value a = index a ALPHABET.
Proof.
  assert (H : forall a, (match b64_value a, index a ALPHABET with Some v, Some w => v =? w | None, None => true | _, _ => false end) = true) by (apply by_cases; vm_compute; reflexivity).
  specialize (H a). destruct (b64_value a), (index a ALPHABET); try discriminate; [apply Z.eqb_eq in H; congruence|reflexivity].
Qed.
Lemma value_bound a v : b64_value a = Some v -> 0 <= v < 64.
Proof.
  assert (H : forall a, (match b64_value a with Some v => (0 <=? v) && (v <? 64) | None => true end) = true) by (apply by_cases; vm_compute; reflexivity).
  specialize (H a). intros E. rewrite E in H. apply andb_prop in H. rewrite Z.leb_le, Z.ltb_lt in H. exact H.
Qed.
Lemma pad_no_value : b64_value "="%char = None.
Proof. reflexivity. Qed.
Lemma same_head a a' l l' : a = a' -> l = l' -> b64_char a :: l = b64_char a' :: l'.
Proof. intros -> ->. reflexivity. Qed.
Theorem b64encode_is b : b64encode b = base64 b.
Proof.
  assert (H : forall n b, length b = n -> b64encode b = base64 b).
  2: { exact (H _ b eq_refl). }
  induction n as [n IH] using lt_wf_ind. clear b. intros b L. destruct b as [|x [|y [|z b]]]; [reflexivity|..]; cbn [b64encode base64 quad firstn app];
    repeat match goal with a : ascii |- _ => lazymatch goal with B : 0 <= byte_Z a < 256 |- _ => fail | _ => pose proof (byte_bound a) end end;
    change number with byte_Z; cbv zeta; rewrite ?Z.add_0_r; rewrite !letter_char by zdm.
  - repeat (apply same_head; [zdm|]). reflexivity.
  - repeat (apply same_head; [zdm|]). reflexivity.
  - cbn [length] in L. rewrite (IH (length b) ltac:(lia) b eq_refl). repeat (apply same_head; [zdm|]). reflexivity.
Qed.

(** Decoding: [q], [left] and [pads] say what has been read of [pre]. *)
Lemma values_app p r : values (p ++ r) = values p ++ values r.
Proof. unfold values. apply flat_map_app. Qed.
Definition group (pre : list ascii) : list Z := skipn (4 * (length (values pre) / 4)) (values pre).
Lemma octets_group vs k ws : length vs = (4 * k)%nat -> octets_of (vs ++ ws) = octets_of vs ++ octets_of ws.
Proof.
  revert vs. induction k as [|k IH]; intros vs L; [destruct vs; [reflexivity|discriminate]|].
  destruct vs as [|a [|b [|c [|d vs]]]]; cbn [length] in L; try lia. cbn [app octets_of]. rewrite IH by lia. apply app_assoc.
Qed.
(** The values read: full groups, an incomplete one [g]; [done] are the octets given so far. *)
Inductive reading : list Z -> nat -> Z -> bytes -> Prop :=
| R0 vs k : length vs = (4 * k)%nat -> reading vs 0 0 (octets_of vs)
| R1 vs k a : length vs = (4 * k)%nat -> 0 <= a < 64 -> reading (vs ++ [a]) 1 a (octets_of vs)
| R2 vs k a b : length vs = (4 * k)%nat -> 0 <= a < 64 -> 0 <= b < 64 -> reading (vs ++ [a; b]) 2 (b mod 16) (octets_of vs ++ [byte_of (a * 4 + b / 16)])
| R3 vs k a b c : length vs = (4 * k)%nat -> 0 <= a < 64 -> 0 <= b < 64 -> 0 <= c < 64 ->
    reading (vs ++ [a; b; c]) 3 (c mod 4) (octets_of vs ++ [byte_of (a * 4 + b / 16); byte_of ((b mod 16) * 16 + c / 4)]).
Lemma triple_is a b c d : 0 <= a < 64 -> 0 <= b < 64 -> 0 <= c < 64 -> 0 <= d < 64 ->
  triple a b c d = [byte_of (a * 4 + b / 16); byte_of ((b mod 16) * 16 + c / 4); byte_of ((c mod 4) * 64 + d)].
Proof.
  intros A B C D. unfold triple. cbv zeta. cbn [map]. set (n := a * 262144 + b * 4096 + c * 64 + d).
  assert (E1 : n / 65536 = a * 4 + b / 16) by (unfold n; zdm). assert (E2 : n / 256 mod 256 = (b mod 16) * 16 + c / 4) by (unfold n; zdm).
  assert (E3 : n mod 256 = (c mod 4) * 64 + d) by (unfold n; zdm). rewrite E1, E2, E3. reflexivity.
Qed.
Lemma reading_mod vs q left done : reading vs q left done -> (length vs mod 4 = q)%nat.
Proof.
  destruct 1 as [vs k L|vs k a L|vs k a b L|vs k a b c L]; rewrite ?app_length, L; cbn [length];
    [replace (4 * k)%nat with (0 + k * 4)%nat by lia|replace (4 * k + 1)%nat with (1 + k * 4)%nat by lia|replace (4 * k + 2)%nat with (2 + k * 4)%nat by lia|replace (4 * k + 3)%nat with (3 + k * 4)%nat by lia];
    rewrite Nat.mod_add by lia; reflexivity.
Qed.
Lemma reading_octets vs q left done : reading vs q left done -> (q <> 1)%nat -> octets_of vs = done.
Proof.
  destruct 1 as [vs k L|vs k a L|vs k a b L A B|vs k a b c L A B C]; intros Q; [reflexivity|congruence|..]; rewrite (octets_group vs k) by exact L; cbn [octets_of];
    rewrite triple_is by lia; reflexivity.
Qed.
Lemma values_cons a s v : b64_value a = Some v -> values (a :: s) = v :: values s.
Proof. intros E. unfold values. cbn [flat_map]. rewrite <- value_index, E. reflexivity. Qed.
Lemma values_skip a s : b64_value a = None -> values (a :: s) = values s.
Proof. intros E. unfold values. cbn [flat_map]. rewrite <- value_index, E. reflexivity. Qed.
Lemma values_snoc pre a : values (pre ++ [a]) = values pre ++ match b64_value a with Some v => [v] | None => [] end.
Proof. rewrite values_app. f_equal. destruct (b64_value a) as [v|] eqn:E; [rewrite (values_cons _ _ _ E)|rewrite values_skip by exact E]; reflexivity. Qed.
(** [pads] is positive if, at two letters, an equals sign has been read since. *)
Definition one_pad (pre : list ascii) : Prop := exists p1 p2, pre = p1 ++ "="%char :: p2 /\ values p2 = [].
Definition none_before (pre : list ascii) : Prop := forall p' r', pre = p' ++ "="%char :: r' -> ~ ends_data p'.
Lemma snoc_split (pre : list ascii) a p' x r' : pre ++ [a] = p' ++ x :: r' -> (r' = [] /\ p' = pre /\ x = a) \/ exists r, r' = r ++ [a] /\ pre = p' ++ x :: r.
Proof.
  intros E. destruct r' as [|y r'] using rev_ind.
  - apply app_inj_tail in E. destruct E as [-> ->]. auto.
  - right. exists r'. change (x :: r' ++ [y]) with ((x :: r') ++ [y]) in E. rewrite app_assoc in E. apply app_inj_tail in E. destruct E as [-> ->]. auto.
Qed.
Lemma pad_value p1 p2 : values (p1 ++ "="%char :: p2) = values p1 ++ values p2.
Proof. rewrite values_app. f_equal. Qed.
Lemma one_pad_snoc pre a : one_pad (pre ++ [a]) <-> (a = "="%char \/ (b64_value a = None /\ one_pad pre)).
Proof.
  unfold one_pad. split.
  - intros (p1 & p2 & E & V). apply snoc_split in E. destruct E as [(-> & -> & <-)|(r & -> & ->)]; [auto|]. rewrite values_snoc in V.
    destruct (b64_value a); [destruct (values r); discriminate|]. right. split; [reflexivity|]. exists p1, r. rewrite app_nil_r in V. auto.
  - intros [->|[N (p1 & p2 & -> & V)]]; [exists pre, []; auto|]. exists p1, (p2 ++ [a]). rewrite <- app_assoc. split; [reflexivity|]. rewrite values_snoc, N, V. reflexivity.
Qed.
Lemma none_snoc pre a : none_before pre -> (a = "="%char -> ~ ends_data pre) -> none_before (pre ++ [a]).
Proof. intros N H p' r' E. apply snoc_split in E. destruct E as [(-> & -> & <-)|(r & -> & ->)]; [auto|]. exact (N p' r eq_refl). Qed.
Lemma no_end_equal s : none_before s -> forall p, ~ first_end s p.
Proof. intros N p ((r & E) & D & _). exact (N p r E D). Qed.

Lemma decode_from s : forall pre q left pads done, reading (values pre) q left done -> none_before pre ->
  ((q = 2)%nat -> ((1 <= pads)%nat <-> one_pad pre)) -> ((q = 3)%nat -> pads = 0%nat) -> (pads <= 1)%nat ->
  match a2b_base64 s q left pads with
  | Ok r => decodes (pre ++ s) (done ++ r)
  | Raise _ => forall b, ~ decodes (pre ++ s) b
  end.
Proof.
  induction s as [|ch s IH]; intros pre q left pads done R N P2 P3 P1.
  - cbn [a2b_base64]. rewrite app_nil_r. pose proof (reading_mod _ _ _ _ R) as M. destruct q as [|[|q]].
    + rewrite app_nil_r. right. split; [apply no_end_equal, N|]. split; [exact M|]. symmetry. apply (reading_octets _ _ _ _ R). discriminate.
    + intros b [(p & F & _)|(_ & M' & _)]; [exact (no_end_equal _ N _ F)|congruence].
    + intros b [(p & F & _)|(_ & M' & _)]; [exact (no_end_equal _ N _ F)|congruence].
  - cbn [a2b_base64]. unfold pad_char. pose proof (reading_mod _ _ _ _ R) as M.
    replace (pre ++ ch :: s) with ((pre ++ [ch]) ++ s) by (rewrite <- app_assoc; reflexivity). destruct (Ascii.eqb_spec ch "="%char) as [->|NE].
    + assert (VS : values (pre ++ ["="%char]) = values pre) by (rewrite values_snoc, pad_no_value, app_nil_r; reflexivity).
      destruct (Nat.leb_spec 2 q) as [Q|Q].
      * destruct (Nat.leb_spec 4 (q + S pads)) as [F|F].
        -- left. exists pre. split; [|rewrite app_nil_r; symmetry; apply (reading_octets _ _ _ _ R); lia]. split; [exists s; rewrite <- app_assoc; reflexivity|]. split; [|exact N].
           assert (q < 4)%nat by (rewrite <- M; apply Nat.mod_upper_bound; discriminate). destruct (Nat.eq_dec q 3) as [->|]; [left; exact M|]. right. destruct q as [|[|[|q]]]; [lia|lia| |lia].
           split; [exact M|]. apply P2; [reflexivity|lia].
        -- destruct q as [|[|[|q]]]; [lia|lia| |lia]. assert (pads = 0)%nat by lia. subst pads. apply (IH (pre ++ ["="%char])).
           ++ rewrite VS. exact R.
           ++ apply none_snoc; [exact N|]. intros _ [D|[D O]]; [congruence|]. apply P2 in O; [lia|reflexivity].
           ++ intros _. split; [intros _; apply one_pad_snoc; auto|lia].
           ++ discriminate.
           ++ lia.
      * apply (IH (pre ++ ["="%char])); [rewrite VS; exact R| |lia|lia|exact P1].
        apply none_snoc; [exact N|]. intros _ [D|[D O]]; lia.
    + assert (NS : none_before (pre ++ [ch])) by (apply none_snoc; [exact N|intros E; contradiction]).
      destruct (b64_value ch) as [v|] eqn:V.
      * assert (VS : values (pre ++ [ch]) = values pre ++ [v]) by (rewrite values_snoc, V; reflexivity). pose proof (value_bound _ _ V) as B.
        assert (NP : ~ one_pad (pre ++ [ch])) by (rewrite one_pad_snoc; intros [E|[E _]]; congruence).
        assert (STEP : forall q' left' done', reading (values pre ++ [v]) q' left' done' -> match a2b_base64 s q' left' 0 with Ok r => decodes ((pre ++ [ch]) ++ s) (done' ++ r) | Raise _ => forall b, ~ decodes ((pre ++ [ch]) ++ s) b end).
        { intros q' left' done' R'. apply IH; [rewrite VS; exact R'|exact NS| |reflexivity|lia]. intros _. split; [lia|intros O; destruct (NP O)]. }
        clear IH P1 P2 P3 N NS NP. revert STEP. generalize ((pre ++ [ch]) ++ s) as W. intros W STEP. inversion R as [vs k L E1 E2 E3 E4|vs k a L A E1 E2 E3 E4|vs k a b L A A' E1 E2 E3 E4|vs k a b c L A A' A'' E1 E2 E3 E4]; subst.
        -- apply STEP. apply (R1 (values pre) k); assumption.
        -- rewrite <- E1 in STEP. rewrite <- app_assoc in STEP. cbn [app] in STEP. specialize (STEP _ _ _ (R2 vs k left v L A B)).
           destruct (a2b_base64 s 2 (v mod 16) 0) as [r|e]; cbn [bind]; [|exact STEP]. rewrite <- app_assoc in STEP. exact STEP.
        -- rewrite <- E1 in STEP. rewrite <- app_assoc in STEP. cbn [app] in STEP. specialize (STEP _ _ _ (R3 vs k a b v L A A' B)).
           destruct (a2b_base64 s 3 (v mod 4) 0) as [r|e]; cbn [bind]; [|exact STEP]. rewrite <- !app_assoc in STEP. cbn [app] in STEP. rewrite <- app_assoc. exact STEP.
        -- rewrite <- E1 in STEP. rewrite <- app_assoc in STEP. cbn [app] in STEP.
           assert (L' : length (vs ++ [a; b; c; v]) = (4 * S k)%nat) by (rewrite app_length, L; cbn [length]; lia). specialize (STEP _ _ _ (R0 _ (S k) L')).
           rewrite (octets_group vs k) in STEP by exact L. cbn [octets_of] in STEP. rewrite triple_is in STEP by assumption.
           destruct (a2b_base64 s 0 0 0) as [r|e]; cbn [bind]; [|exact STEP]. rewrite <- !app_assoc in STEP. cbn [app] in STEP. rewrite <- app_assoc. exact STEP.
      * assert (VS : values (pre ++ [ch]) = values pre) by (rewrite values_snoc, V, app_nil_r; reflexivity).
        apply IH; [rewrite VS; exact R|exact NS| |exact P3|exact P1].
        intros E. rewrite (P2 E), one_pad_snoc. split; [auto|]. intros [X|[_ O]]; [contradiction|exact O].
Qed.
Lemma prefix_lt (p : list ascii) : forall x r p' y r', p ++ x :: r = p' ++ y :: r' -> (length p < length p')%nat -> exists t, p' = p ++ x :: t.
Proof.
  induction p as [|a p IH]; intros x r [|a' p'] y r' E L; cbn [length] in L; try lia; cbn [app] in E; injection E as -> E; [exists p'; reflexivity|].
  destruct (IH _ _ _ _ _ E ltac:(lia)) as [t ->]. exists t. reflexivity.
Qed.
Lemma prefix_eq (p : list ascii) : forall p' r r', p ++ r = p' ++ r' -> length p = length p' -> p = p'.
Proof. induction p as [|a p IH]; intros [|a' p'] r r' E L; cbn [length] in L; try lia; [reflexivity|]. cbn [app] in E. injection E as -> E. f_equal. apply (IH _ _ _ E). lia. Qed.
Theorem b64decode_iff s : (forall b, b64decode_str s = Ok b <-> Forall (fun a => number a < 128) (chars s) /\ decodes (chars s) b).
Proof.
  pose proof (decode_from (chars s) [] 0 0 0 []) as H. cbn [app] in H.
  specialize (H (R0 [] 0 eq_refl) ltac:(intros p' r' E; destruct p'; discriminate) ltac:(discriminate) ltac:(discriminate) ltac:(lia)).
  intros b. unfold b64decode_str, encode_str. change (list_ascii_of_string s) with (chars s) in *.
  assert (A : is_ascii (chars s) = true <-> Forall (fun a => number a < 128) (chars s)).
  { unfold is_ascii. rewrite forallb_forall, Forall_forall. split; intros K x I0; specialize (K x I0); apply Z.ltb_lt in K; exact K. }
  destruct (is_ascii (chars s)).
  - destruct (a2b_base64 (chars s) 0 0 0) as [r|e].
    + split; [intros E; injection E as <-; split; [apply A; reflexivity|exact H]|]. intros [_ D]. f_equal.
      assert (U : forall b b', decodes (chars s) b -> decodes (chars s) b' -> b = b').
      { clear. intros b b' [(p & F & ->)|(X & Y & ->)] [(p' & F' & ->)|(X' & Y' & ->)]; [|destruct (X' _ F)|destruct (X _ F')|reflexivity].
        f_equal. f_equal. destruct F as ((r & E) & D & N), F' as ((r' & E') & D' & N'). rewrite E in E'. clear E.
        destruct (Nat.lt_trichotomy (length p) (length p')) as [L|[L|L]].
        - exfalso. destruct (prefix_lt _ _ _ _ _ _ E' L) as [t ->]. exact (N' p t eq_refl D).
        - exact (prefix_eq _ _ _ _ E' L).
        - exfalso. destruct (prefix_lt _ _ _ _ _ _ (eq_sym E') L) as [t ->]. exact (N p' t eq_refl D'). }
      exact (U _ _ H D).
    + split; [discriminate|]. intros [_ D]. destruct (H b D).
  - split; [discriminate|]. intros [K _]. apply A in K. discriminate.
Qed.
