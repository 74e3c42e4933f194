(** * JsonFacts: the JSON decoder inverts the encoder. *)
From Coq Require Import String Ascii List ZArith Bool Lia DecimalString DecimalZ.
From Verif Require Import PyBase DictFacts Rawsocket BitFacts Encoding EncodingFacts Utf8 Utf8Facts CodecBase Serializer SerializerFacts
  MsgPack Json SpecCodec CodecFacts.
Import ListNotations.
Local Open Scope Z_scope.

(** ** Integers *)
Definition digits (t : text) : Prop := Forall (fun c => is_digit c = true) t.
Definition natural_text (t : text) : Prop := t = [48] \/ exists c r, t = c :: r /\ 49 <= c <= 57 /\ digits r.

Definition dval (acc : Z) (t : text) : Z := fold_left (fun acc c => 10 * acc + (c - 48)) t acc.

Lemma uint_digits u : digits (codes (NilEmpty.string_of_uint u)).
Proof. induction u; cbn; constructor; auto. Qed.

Lemma uint_acc u : forall acc, dval (Zpos acc) (codes (NilEmpty.string_of_uint u)) = Zpos (Pos.of_uint_acc u acc).
Proof.
  induction u; intros acc; [reflexivity|..];
    cbn [NilEmpty.string_of_uint Pos.of_uint_acc]; rewrite <- IHu; unfold codes, encode_str; cbn [list_ascii_of_string map];
    unfold dval; cbn [fold_left]; f_equal;
    match goal with |- 10 * _ + (byte_Z ?a - 48) = _ => let x := eval vm_compute in (byte_Z a) in change (byte_Z a) with x end; lia.
Qed.

Lemma dval_cons acc c t : dval acc (c :: t) = dval (10 * acc + (c - 48)) t.
Proof. reflexivity. Qed.

Lemma pos_uint p : exists u, Pos.to_uint p = u /\ Z.of_uint u = Zpos p /\ Decimal.unorm u = u.
Proof.
  exists (Pos.to_uint p). split; [reflexivity|]. pose proof (DecimalZ.of_to (Zpos p)) as H. split; [exact H|].
  pose proof (DecimalZ.to_of (Z.to_int (Zpos p))) as N. rewrite H in N. cbn in N. congruence.
Qed.

Lemma codes_pos p : exists c r, codes (NilZero.string_of_uint (Pos.to_uint p)) = c :: r /\ 49 <= c <= 57 /\ digits r /\ dval 0 (c :: r) = Zpos p.
Proof.
  destruct (pos_uint p) as (u & -> & V & N).
  unfold Decimal.unorm in N.
  assert (NZ : forall w, Decimal.nzhead w <> w \/ match w with Decimal.Nil => True | Decimal.D0 _ => False | _ => True end) .
  { intros w. destruct w; auto. left. intros E. 
    assert (L : forall w, (Decimal.nb_digits (Decimal.nzhead w) <= Decimal.nb_digits w)%nat) by (clear; induction w; cbn; lia).
    specialize (L w). cbn in E. apply (f_equal Decimal.nb_digits) in E. cbn in E. lia. }
  destruct u as [|u|u|u|u|u|u|u|u|u|u]; [cbn in V; discriminate|..].
  { exfalso. cbn [Decimal.nzhead] in N. unfold Z.of_uint in V. cbn [Pos.of_uint] in V. destruct (Decimal.nzhead u) as [|w|w|w|w|w|w|w|w|w|w] eqn:E; try discriminate.
    - injection N as <-. cbn in V. discriminate.
    - clear V. assert (forall w', match Decimal.nzhead w' with Decimal.D0 _ => False | _ => True end) as Q by (induction w'; cbn; auto).
      specialize (Q u). rewrite E in Q. exact Q. }
  all: clear N NZ; unfold NilZero.string_of_uint; cbn [NilEmpty.string_of_uint]; eexists _, _; split; [reflexivity|];
    split; [vm_compute; split; discriminate|]; split; [apply uint_digits|];
    rewrite dval_cons; unfold Z.of_uint in V; cbn [Pos.of_uint Z.of_N] in V; rewrite <- V; rewrite <- uint_acc; reflexivity.
Qed.

Lemma codes_nonneg z : 0 <= z -> natural_text (codes (str_of_Z z)) /\ digits_value (codes (str_of_Z z)) = z.
Proof.
  intros H. destruct z as [|p|p]; [split; [left|]; reflexivity| |lia].
  unfold str_of_Z. cbn [Z.to_int NilZero.string_of_int]. destruct (codes_pos p) as (c & r & E & C & D & V). rewrite E. split.
  - right. eauto.
  - exact V.
Qed.
Lemma codes_neg z : z < 0 -> codes (str_of_Z z) = 45 :: codes (str_of_Z (- z)).
Proof. intros H. destruct z as [|p|p]; try lia. reflexivity. Qed.

Lemma dval_ge t : digits t -> forall acc, 0 <= acc -> acc * 10 ^ zlen t <= dval acc t.
Proof.
  induction 1 as [|c t C T IH]; intros acc A; [unfold zlen; cbn; lia|]. rewrite dval_cons.
  unfold is_digit in C. apply andb_true_iff in C. assert (48 <= c <= 57) by lia.
  unfold zlen in *. cbn [length]. rewrite Nat2Z.inj_succ, Z.pow_succ_r by lia.
  specialize (IH (10 * acc + (c - 48)) ltac:(lia)). assert (0 < 10 ^ Z.of_nat (length t)) by (apply Z.pow_pos_nonneg; lia). nia.
Qed.
Lemma natural_length t n : natural_text t -> digits_value t < 10 ^ n -> 0 < n -> zlen t <= n.
Proof.
  intros [->|(c & r & -> & C & D)] V N; [unfold zlen; cbn; lia|].
  change (digits_value (c :: r)) with (dval (10 * 0 + (c - 48)) r) in V. pose proof (dval_ge r D (10 * 0 + (c - 48)) ltac:(lia)) as G.
  unfold zlen in *. cbn [length]. rewrite Nat2Z.inj_succ.
  assert (P : 10 ^ Z.of_nat (length r) < 10 ^ n). { assert (0 < 10 ^ Z.of_nat (length r)) by (apply Z.pow_pos_nonneg; lia). nia. }
  apply Z.pow_lt_mono_r_iff in P; lia.
Qed.

(** ** Numbers *)
Definition stop (r : text) : Prop := match r with [] => True | c :: _ => c = 44 \/ c = 93 \/ c = 125 end.
Definition no_digit (r : text) : Prop := match r with [] => True | c :: _ => is_digit c = false end.

Lemma span_digits_app d r : digits d -> no_digit r -> span_digits (d ++ r) = (d, r).
Proof.
  intros D N. induction D as [|c d C D IH]; cbn [app span_digits].
  - destruct r as [|c r]; [reflexivity|]. cbn in *. rewrite N. reflexivity.
  - rewrite C, IH. reflexivity.
Qed.
Lemma js_natural_app i r : natural_text i -> no_digit r -> js_natural (i ++ r) = Some (i, r).
Proof.
  intros [->|(c & d & -> & C & D)] N; [reflexivity|]. unfold js_natural. cbn [app].
  destruct (Z.eqb_spec c 48); [lia|]. assert (X : is_digit c = true) by (unfold is_digit; apply andb_true_iff; lia). rewrite X.
  change (c :: d ++ r) with ((c :: d) ++ r). rewrite span_digits_app; [reflexivity|constructor; assumption|assumption].
Qed.

(** The text of a number with a fraction or an exponent. *)
Definition frac_text (f : text) : Prop := f = [] \/ exists d, f = 46 :: d /\ d <> [] /\ digits d.
Definition exp_text (e : text) : Prop :=
  e = [] \/ exists x s d, e = x :: s ++ d /\ (x = 101 \/ x = 69) /\ (s = [] \/ s = [43] \/ s = [45]) /\ d <> [] /\ digits d.
Definition number_text (n : number) : Prop :=
  (n_sign n = [] \/ n_sign n = [45]) /\ natural_text (n_int n) /\
  exists f e, n_rest n = f ++ e /\ frac_text f /\ exp_text e.

Lemma stop_no_digit r : stop r -> no_digit r.
Proof. destruct r as [|c r]; cbn; [auto|]. intros [->|[->| ->]]; reflexivity. Qed.

Lemma js_exp_app e r : exp_text e -> stop r -> js_exp (e ++ r) = (e, r).
Proof.
  intros [->|(x & s & d & -> & X & S & D0 & D)] R.
  - cbn [app]. destruct r as [|c r]; [reflexivity|]. cbn in R. unfold js_exp. destruct R as [->|[->| ->]]; reflexivity.
  - cbn [app]. rewrite <- app_assoc. unfold js_exp. replace ((x =? 101) || (x =? 69)) with true by (destruct X; subst x; reflexivity).
    assert (Q : (match s ++ d ++ r with
             | x0 :: r' => if (x0 =? 43) || (x0 =? 45) then ([x0], r') else ([], s ++ d ++ r)
             | [] => ([], []) end) = (s, d ++ r)).
    { destruct S as [->|[->| ->]]; [|reflexivity|reflexivity]. cbn [app]. destruct d as [|y d]; [congruence|]. cbn [app].
      inversion D as [|? ? Y _]; subst. unfold is_digit in Y. apply andb_true_iff in Y.
      destruct (Z.eqb_spec y 43); [lia|]. destruct (Z.eqb_spec y 45); [lia|]. reflexivity. }
    rewrite Q. rewrite span_digits_app by (auto using stop_no_digit). destruct d; [congruence|]. reflexivity.
Qed.
Lemma js_frac_app f r : frac_text f -> no_digit r -> (match r with c :: _ => c <> 46 | [] => True end) -> js_frac (f ++ r) = (f, r).
Proof.
  intros [->|(d & -> & D0 & D)] N R.
  - cbn [app]. destruct r as [|c r]; [reflexivity|]. unfold js_frac. destruct (Z.eqb_spec c 46); [contradiction|reflexivity].
  - cbn [app]. unfold js_frac. change (46 =? 46) with true. cbv iota. rewrite span_digits_app by assumption. destruct d; [congruence|reflexivity].
Qed.

Lemma js_number_app n r : number_text n -> stop r -> js_number ((n_sign n ++ n_int n ++ n_rest n) ++ r) = Some (n, r).
Proof.
  intros (S & I0 & f & e & E & F & X) R. unfold js_number. destruct n as [s i q]. cbn [n_sign n_int n_rest] in *. subst q.
  rewrite <- !app_assoc.
  assert (Q : js_sign (s ++ i ++ f ++ e ++ r) = (s, i ++ f ++ e ++ r)).
  { destruct S as [->| ->]; [|reflexivity]. cbn [app]. destruct I0 as [->|(c & d & -> & C & D)]; [reflexivity|].
    unfold js_sign. cbn [app]. destruct (Z.eqb_spec c 45); [lia|reflexivity]. }
  rewrite Q.
  assert (ND : no_digit (e ++ r) /\ match e ++ r with c :: _ => c <> 46 | [] => True end).
  { destruct X as [->|(x & t & d & -> & X & _)]; cbn [app].
    - split; [apply stop_no_digit; exact R|]. destruct r; [exact Logic.I|]. cbn in R. destruct R as [->|[->| ->]]; discriminate.
    - cbn. destruct X as [->| ->]; split; (reflexivity || discriminate). }
  assert (NF : no_digit (f ++ e ++ r)). { destruct F as [->|(d & -> & _)]; [apply ND|reflexivity]. }
  rewrite js_natural_app by assumption. rewrite js_frac_app by (auto; apply ND). rewrite js_exp_app by assumption. reflexivity.
Qed.

(** ** Strings *)
Lemma hex_value_digit d : 0 <= d < 16 -> hex_value (hex_digit d) = Some d.
Proof.
  intros H. unfold hex_digit, hex_value. destruct (Z.ltb_spec d 10).
  - replace ((48 <=? 48 + d) && (48 + d <=? 57)) with true by (symmetry; apply andb_true_iff; lia). f_equal. lia.
  - replace ((48 <=? 87 + d) && (87 + d <=? 57)) with false by (symmetry; apply andb_false_iff; right; lia).
    replace ((97 <=? 87 + d) && (87 + d <=? 102)) with true by (symmetry; apply andb_true_iff; lia). f_equal. lia.
Qed.
Lemma hex4_escape u : 0 <= u < 65536 ->
  hex4 (hex_digit (u / 4096 mod 16)) (hex_digit (u / 256 mod 16)) (hex_digit (u / 16 mod 16)) (hex_digit (u mod 16)) = Some u.
Proof.
  intros H. unfold hex4. rewrite !hex_value_digit by (apply Z.mod_pos_bound; lia). f_equal.
  rewrite (Z.mod_small (u / 4096)) by (split; [apply Z.div_pos; lia|apply Z.div_lt_upper_bound; lia]).
  assert (E1 : u / 256 = 16 * (u / 4096) + u / 256 mod 16).
  { change 4096 with (256 * 16). rewrite <- Z.div_div by lia. apply Z.div_mod. lia. }
  assert (E2 : u / 16 = 16 * (u / 256) + u / 16 mod 16).
  { change 256 with (16 * 16). rewrite <- Z.div_div by lia. apply Z.div_mod. lia. }
  pose proof (Z.div_mod u 16). lia.
Qed.

(** An escaped high surrogate stays alone unless a low one, or an invalid escape, follows. *)
Definition next_ok (t : text) : Prop :=
  match t with
  | b :: w :: g1 :: g2 :: g3 :: g4 :: _ => b = 92 -> w = 117 -> exists v, hex4 g1 g2 g3 g4 = Some v /\ is_low v = false
  | _ => True
  end.
Lemma js_string_escape u t : 0 <= u < 65536 -> (is_high u = true -> next_ok t) -> js_string (u_escape u ++ t) = prepend u (js_string t).
Proof.
  intros H N. unfold u_escape. cbn [app js_string]. rewrite Z.eqb_refl. change (92 =? 34) with false. change (117 =? 117) with true. cbv iota.
  rewrite hex4_escape by lia. destruct (is_high u); [|reflexivity]. specialize (N eq_refl).
  destruct t as [|b [|w [|g1 [|g2 [|g3 [|g4 r3]]]]]]; try reflexivity. cbn [next_ok] in N.
  destruct (Z.eqb_spec b 92); [|reflexivity]. destruct (Z.eqb_spec w 117); [|reflexivity]. cbn [andb].
  destruct N as (v & -> & L); [assumption..|]. rewrite L. reflexivity.
Qed.

Lemma js_string_char p t : is_code p = true -> (is_high p = true -> next_ok t) -> js_string (js_char p ++ t) = prepend p (js_string t).
Proof.
  intros H N. apply code_code in H. unfold js_char.
  destruct (Z.eqb_spec p 34) as [->|]; [reflexivity|]. destruct (Z.eqb_spec p 92) as [->|]; [reflexivity|].
  destruct (Z.eqb_spec p 10) as [->|]; [reflexivity|]. destruct (Z.eqb_spec p 13) as [->|]; [reflexivity|].
  destruct (Z.eqb_spec p 9) as [->|]; [reflexivity|]. destruct (Z.eqb_spec p 12) as [->|]; [reflexivity|].
  destruct (Z.eqb_spec p 8) as [->|]; [reflexivity|].
  destruct ((32 <=? p) && (p <=? 126)) eqn:R.
  { apply andb_true_iff in R. cbn [app js_string]. destruct (Z.eqb_spec p 34); [lia|]. destruct (Z.eqb_spec p 92); [lia|].
    destruct (Z.ltb_spec p 32); [lia|]. reflexivity. }
  destruct (Z.ltb_spec p 65536); [apply js_string_escape; [lia|exact N]|].
  set (m := p - 65536). assert (Hn : 0 <= m < 1048576) by lia.
  assert (Hq : 0 <= m / 1024 < 1024) by (split; [apply Z.div_pos; lia|apply Z.div_lt_upper_bound; lia]).
  assert (Hm : 0 <= m mod 1024 < 1024) by (apply Z.mod_pos_bound; lia).
  pose proof (Z.div_mod m 1024 ltac:(lia)) as E.
  unfold u_escape. cbn [app js_string]. rewrite Z.eqb_refl. change (92 =? 34) with false. change (117 =? 117) with true. cbv iota.
  rewrite !hex4_escape by lia.
  replace (is_high (55296 + m / 1024)) with true by (unfold is_high; lia).
  cbn [andb].
  replace (is_low (56320 + m mod 1024)) with true by (unfold is_low; lia).
  f_equal. lia.
Qed.
Lemma next_ok_char q t : is_code q = true -> is_low q = false -> next_ok (js_char q ++ t).
Proof.
  intros H L. apply code_code in H. unfold js_char.
  assert (K : forall w, w <> 117 -> next_ok ([92; w] ++ t)).
  { intros w W. destruct t as [|g1 [|g2 [|g3 [|g4 r]]]]; cbn; try exact I. congruence. }
  do 7 (match goal with |- context [q =? ?n] => destruct (Z.eqb_spec q n) end; [apply K; discriminate|]).
  destruct ((32 <=? q) && (q <=? 126)).
  { destruct t as [|w [|g1 [|g2 [|g3 [|g4 r]]]]]; cbn; try exact I. congruence. }
  assert (U : forall u r, 0 <= u < 65536 -> is_low u = false -> next_ok (u_escape u ++ r)).
  { intros u r B C. cbn [u_escape app next_ok]. intros _ _. exists u. split; [apply hex4_escape; exact B|exact C]. }
  destruct (Z.ltb_spec q 65536); [apply U; [lia|exact L]|]. rewrite <- app_assoc.
  assert (Hq : 0 <= (q - 65536) / 1024 < 1024) by (split; [apply Z.div_pos; lia|apply Z.div_lt_upper_bound; lia]).
  apply U; [lia|unfold is_low; lia].
Qed.
Lemma js_string_text ps t : forallb is_code ps = true -> no_pair ps = true -> js_string (flat_map js_char ps ++ 34 :: t) = Ok (ps, t).
Proof.
  induction ps as [|p ps IH]; intros H N; [reflexivity|]. cbn [forallb] in H. apply andb_true_iff in H. destruct H as [H1 H2].
  apply no_pair_cons in N. destruct N as [N1 N2]. cbn [flat_map]. rewrite <- app_assoc, js_string_char, IH; [reflexivity|assumption..|].
  intros Hi. specialize (N2 Hi). destruct ps as [|q ps]; [destruct t as [|? [|? [|? [|? [|? ?]]]]]; cbn; try exact I; discriminate|].
  cbn [forallb flat_map] in *. apply andb_true_iff in H2. rewrite <- app_assoc. apply next_ok_char; tauto.
Qed.

Definition ascii_text (t : text) : Prop := Forall (fun c => 0 < c < 128) t.
Lemma hex_digit_ascii d : 0 <= d < 16 -> 0 < hex_digit d < 128.
Proof. unfold hex_digit. destruct (Z.ltb_spec d 10); lia. Qed.
Lemma u_escape_ascii u : ascii_text (u_escape u).
Proof. unfold u_escape. repeat constructor; try lia; apply hex_digit_ascii, Z.mod_pos_bound; lia. Qed.
Lemma js_char_ascii p : ascii_text (js_char p).
Proof.
  unfold js_char. repeat match goal with |- context [if ?c then _ else _] => destruct c eqn:? end;
    try (repeat constructor; lia); try apply u_escape_ascii.
  apply Forall_app. split; apply u_escape_ascii.
Qed.
Lemma flat_map_ascii ps : ascii_text (flat_map js_char ps).
Proof. induction ps; [constructor|]. cbn [flat_map]. apply Forall_app. split; [apply js_char_ascii|assumption]. Qed.

Lemma utf8_ascii t : ascii_text t -> str_points (map byte_of t) = Some t.
Proof.
  unfold str_points. induction 1 as [|c t C T IH]; [reflexivity|]. cbn [map decode_points]. rewrite byte_Z_of by lia.
  destruct (Z.ltb_spec c 128); [|lia]. rewrite IH. reflexivity.
Qed.

(** ** Values *)
(** What is asked of the text of floats: the digits of a finite float are a number with a fraction or an exponent, which
    reads back as the same float. *)
Definition floats_ok (fl : floats) : Prop := forall f, 0 <= f < 2 ^ 64 -> f_expo f <> 2047 ->
  exists n, float_repr fl f = n_sign n ++ n_int n ++ n_rest n /\ number_text n /\ n_rest n <> [] /\ float_of fl (float_repr fl f) = f.

Definition starts (b : text) : Prop := exists c t, b = c :: t /\ is_ws c = false /\ c <> 93 /\ c <> 125.

Lemma digit_ascii c : is_digit c = true -> 0 < c < 128.
Proof. unfold is_digit. rewrite andb_true_iff. lia. Qed.
Lemma digits_ascii d : digits d -> ascii_text d.
Proof. apply Forall_impl. apply digit_ascii. Qed.
Lemma natural_ascii i : natural_text i -> ascii_text i.
Proof. intros [->|(c & r & -> & C & D)]; repeat constructor; try lia. apply digits_ascii; exact D. Qed.
Lemma number_ascii n : number_text n -> ascii_text (n_sign n ++ n_int n ++ n_rest n).
Proof.
  intros (S & I0 & f & e & -> & F & X). unfold ascii_text. rewrite !Forall_app. repeat split.
  - destruct S as [->| ->]; repeat constructor; lia.
  - apply natural_ascii; exact I0.
  - destruct F as [->|(d & -> & _ & D)]; constructor; [lia|apply digits_ascii; exact D].
  - destruct X as [->|(x & s & d & -> & X & S' & _ & D)]; constructor; [destruct X; subst; lia|].
    apply Forall_app. split; [|apply digits_ascii; exact D]. destruct S' as [->|[->| ->]]; repeat constructor; lia.
Qed.
(** The first character of a number: a minus sign followed by a digit, or a digit. *)
Lemma natural_head i : natural_text i -> exists c r, i = c :: r /\ 48 <= c <= 57.
Proof. intros [->|(c & r & -> & C & _)]; eexists _, _; (split; [reflexivity|lia]). Qed.

Lemma js_word_number fl n r : number_text n -> stop r ->
  js_word fl ((n_sign n ++ n_int n ++ n_rest n) ++ r) = (let! v := number_value fl n in Ok (v, r)).
Proof.
  intros N R. pose proof (js_number_app n r N R) as J. unfold js_word. rewrite J.
  destruct N as (S & I0 & _). destruct (natural_head _ I0) as (c & t & E & C). rewrite E.
  assert (Q : forall d w x, 48 <= d <= 57 -> ~ 48 <= w <= 57 -> strip (w :: x) (((d :: t) ++ n_rest n) ++ r) = None).
  { intros d w x D W. cbn [app strip]. destruct (Z.eqb_spec w d); [lia|reflexivity]. }
  destruct S as [-> | ->].
  - cbn [app]. cbn [app] in Q.
    change (codes "null") with [110; 117; 108; 108]. change (codes "true") with [116; 114; 117; 101].
    change (codes "false") with [102; 97; 108; 115; 101]. change (codes "NaN") with [78; 97; 78].
    change (codes "Infinity") with [73; 110; 102; 105; 110; 105; 116; 121].
    change (codes "-Infinity") with [45; 73; 110; 102; 105; 110; 105; 116; 121].
    rewrite !Q by lia. reflexivity.
  - cbn [app].
    change (codes "null") with [110; 117; 108; 108]. change (codes "true") with [116; 114; 117; 101].
    change (codes "false") with [102; 97; 108; 115; 101]. change (codes "NaN") with [78; 97; 78].
    change (codes "Infinity") with [73; 110; 102; 105; 110; 105; 116; 121].
    change (codes "-Infinity") with [45; 73; 110; 102; 105; 110; 105; 116; 121].
    cbn [strip]. change (110 =? 45) with false. change (116 =? 45) with false. change (102 =? 45) with false. change (78 =? 45) with false.
    change (73 =? 45) with false. change (45 =? 45) with true. cbv iota. destruct (Z.eqb_spec 73 c); [lia|]. reflexivity.
Qed.

Lemma js_dec_word fl f t : (forall c r, t = c :: r -> c <> 34 /\ c <> 91 /\ c <> 123) -> t <> [] -> js_dec fl (S f) t = js_word fl t.
Proof.
  intros H E. destruct t as [|c r]; [congruence|]. destruct (H c r eq_refl) as (A & B & C). cbn [js_dec].
  destruct (Z.eqb_spec c 34); [contradiction|]. destruct (Z.eqb_spec c 91); [contradiction|]. destruct (Z.eqb_spec c 123); [contradiction|]. reflexivity.
Qed.
Lemma js_dec_number fl f n r : number_text n -> stop r ->
  js_dec fl (S f) ((n_sign n ++ n_int n ++ n_rest n) ++ r) = (let! v := number_value fl n in Ok (v, r)).
Proof.
  intros N R. rewrite js_dec_word; [apply js_word_number; assumption|..];
    destruct N as (S & I0 & _); destruct (natural_head _ I0) as (c & t & E & C); rewrite E; destruct S as [-> | ->]; cbn [app].
  - intros ? ? [= <- _]. lia.
  - intros ? ? [= <- _]. lia.
  - discriminate.
  - discriminate.
Qed.
Lemma number_starts n : number_text n -> starts (n_sign n ++ n_int n ++ n_rest n).
Proof.
  intros (S & I0 & _). destruct (natural_head _ I0) as (c & t & E & C). rewrite E.
  destruct S as [-> | ->]; cbn [app]; eexists _, _; (split; [reflexivity|]); (split; [|lia]); [|reflexivity].
  unfold is_ws. destruct (Z.eqb_spec c 32), (Z.eqb_spec c 9), (Z.eqb_spec c 10), (Z.eqb_spec c 13); lia || reflexivity.
Qed.

Section Good.
  Context (fl : floats) (FL : floats_ok fl).

  Definition js_good (v : val) : Prop :=
    exists b, js_enc fl v = Ok b /\ starts b /\ ascii_text b /\ (levels v < length b)%nat /\
      forall fuel r, stop r -> (levels v < fuel)%nat -> js_dec fl fuel (b ++ r) = Ok (v, r).

  Definition js_items_enc (first : bool) (l : list val) : res text :=
    (fix items (first : bool) l :=
       match l with
       | [] => Ok [93]
       | x :: l' => cat_t (Ok (if first then [] else [44; 32])) (cat_t (js_enc fl x) (items false l'))
       end) first l.
  Definition js_pairs_enc (first : bool) (d : dict) : res text :=
    (fix pairs (first : bool) d :=
       match d with
       | [] => Ok [125]
       | (k, x) :: d' =>
           cat_t (Ok (if first then [] else [44; 32]))
             (cat_t (js_key fl k) (cat_t (Ok [58; 32]) (cat_t (js_enc fl x) (pairs false d'))))
       end) first d.

  Definition sep (first : bool) : text := if first then [] else [44; 32].
  Lemma js_items_cons first x l : js_items_enc first (x :: l) = cat_t (Ok (sep first)) (cat_t (js_enc fl x) (js_items_enc false l)).
  Proof. reflexivity. Qed.
  Lemma js_pairs_cons first k x d : js_pairs_enc first ((k, x) :: d) =
    cat_t (Ok (sep first)) (cat_t (js_key fl k) (cat_t (Ok [58; 32]) (cat_t (js_enc fl x) (js_pairs_enc false d)))).
  Proof. reflexivity. Qed.

  Lemma starts_ws b r : starts b -> skip_ws (b ++ r) = b ++ r.
  Proof. intros (c & t & -> & W & _). cbn [app skip_ws]. rewrite W. reflexivity. Qed.
  Lemma starts_ws' b r : starts b -> skip_ws (32 :: b ++ r) = b ++ r.
  Proof. intros S. cbn [skip_ws]. change (is_ws 32) with true. cbv iota. apply starts_ws; exact S. Qed.

  (** The rest of a list after an element: the closing bracket, or a comma and more elements. *)
  Lemma js_items_good l : Forall js_good l ->
    exists b, js_items_enc false l = Ok b /\ ascii_text b /\ (levels (VList l) <= S (length b))%nat /\
      forall x bx, js_enc fl x = Ok bx -> starts bx ->
        (forall fuel r, stop r -> (levels x < fuel)%nat -> js_dec fl fuel (bx ++ r) = Ok (x, r)) ->
        forall fuel n r, (levels (VList (x :: l)) <= fuel)%nat -> (length b < n)%nat -> js_elems (js_dec fl fuel) n (bx ++ b ++ r) = Ok (x :: l, r).
  Proof.
    intros Gl. induction Gl as [|y l (by_ & Ey & Sy & Ay & Dy & Ry) Gl IH].
    - exists [93]. split; [reflexivity|]. split; [repeat constructor; lia|]. split; [cbn; lia|].
      intros x bx Ex Sx Rx fuel n r F N. cbn [levels] in F. destruct n as [|n]; [lia|]. cbn [js_elems app]. rewrite Rx by (try lia; cbn; auto). reflexivity.
    - destruct IH as (b & E & A & H & R).
      exists (44 :: 32 :: by_ ++ b). rewrite js_items_cons, Ey, E. split; [reflexivity|].
      split; [repeat (constructor; [lia|]); apply Forall_app; auto|]. split; [cbn [length levels] in *; rewrite app_length; lia|].
      intros x bx Ex Sx Rx fuel n r F N. cbn [length levels] in *. rewrite app_length in *. destruct n as [|n]; [lia|]. cbn [js_elems app].
      rewrite Rx by (try lia; cbn; auto). cbn [bind].
      change (skip_ws (44 :: 32 :: (by_ ++ b) ++ r)) with (44 :: 32 :: (by_ ++ b) ++ r).
      change (44 =? 93) with false. change (44 =? 44) with true. cbv iota. rewrite <- app_assoc, starts_ws' by exact Sy.
      rewrite (R y by_ Ey Sy Ry) by lia. reflexivity.
  Qed.

  Lemma js_str_dec s : json_text s ->
    exists ps, js_str s = Ok ([34] ++ flat_map js_char ps ++ [34]) /\ (forall r, js_string (flat_map js_char ps ++ 34 :: r) = Ok (ps, r)) /\
      str_val ps = VStr s.
  Proof.
    unfold js_str, json_text. destruct (str_points (encode_str s)) as [ps|] eqn:E; [|contradiction]. intros N. exists ps.
    split; [reflexivity|]. apply encode_str_points in E. destruct E as [E H]. split; [intros r; apply js_string_text; [exact H|exact N]|].
    unfold str_val. rewrite E, decode_encode_str. reflexivity.
  Qed.

  Lemma str_key_eqb s k : key_eqb (VStr s) k = true -> k = VStr s.
  Proof. destruct k; cbn; try discriminate. intros H. apply String.eqb_eq in H. congruence. Qed.

  Lemma js_pairs_good d : Forall (fun kv => js_good (snd kv)) d ->
    Forall str_key (map fst d) -> Forall (fun kv => json_here (fst kv)) d ->
    exists b, js_pairs_enc false d = Ok b /\ ascii_text b /\ (levels (VDict d) <= S (length b))%nat /\
      forall s ps x bx, (forall r, js_string (flat_map js_char ps ++ 34 :: r) = Ok (ps, r)) -> str_val ps = VStr s ->
        js_enc fl x = Ok bx -> starts bx ->
        (forall fuel r, stop r -> (levels x < fuel)%nat -> js_dec fl fuel (bx ++ r) = Ok (x, r)) ->
        forall fuel n r acc, (levels (VDict ((VStr s, x) :: d)) <= fuel)%nat -> (length b < n)%nat -> NoDup (map fst (acc ++ (VStr s, x) :: d)) ->
          js_members (js_dec fl fuel) n acc (34 :: flat_map js_char ps ++ 34 :: 58 :: 32 :: bx ++ b ++ r) = Ok (acc ++ (VStr s, x) :: d, r).
  Proof.
    intros Gl. 
    assert (V : forall s x acc d, NoDup (map fst (acc ++ (VStr s, x) :: d)) -> vset (VStr s) x acc = acc ++ [(VStr s, x)]).
    { intros s x acc d' ND. apply vset_new. intros k' J. destruct (key_eqb (VStr s) k') eqn:Q; [|reflexivity]. apply str_key_eqb in Q. subst k'.
      rewrite map_app in ND. cbn [map fst] in ND. apply NoDup_remove_2 in ND. contradict ND. apply in_or_app. left; exact J. }
    induction Gl as [|[k y] l (by_ & Ey & Sy & Ay & Dy & Ry) Gl IH]; intros K P; cbn [fst snd] in *.
    - exists [125]. split; [reflexivity|]. split; [repeat constructor; lia|]. split; [cbn; lia|].
      intros s ps x bx Rs Vs Ex Sx Rx fuel n r acc F N ND. cbn [levels] in F. destruct n as [|n]; [lia|]. cbn [js_members]. change (34 =? 34) with true. cbv iota.
      rewrite Rs. cbn [bind]. change (skip_ws (58 :: 32 :: bx ++ [125] ++ r)) with (58 :: 32 :: bx ++ [125] ++ r).
      change (58 =? 58) with true. cbv iota. rewrite starts_ws' by exact Sx. cbn [app]. rewrite Rx by (try lia; cbn; auto). cbn [bind].
      change (skip_ws (125 :: r)) with (125 :: r). change (125 =? 125) with true. cbv iota. rewrite Vs, (V _ _ _ _ ND). reflexivity.
    - inversion K as [|? ? Kk Kl]; subst. inversion P as [|? ? Pk Pl]; subst. cbn [fst] in *. destruct k as [| | | |s'| | | |]; try contradiction.
      destruct (IH Kl Pl) as (b & E & A & L & R). clear IH. destruct (js_str_dec s' (proj2 Pk)) as (ps' & Es' & Rs' & Vs').
      exists (44 :: 32 :: 34 :: flat_map js_char ps' ++ 34 :: 58 :: 32 :: by_ ++ b).
      rewrite js_pairs_cons, Ey, E. cbn [js_key]. rewrite Es'. split; [unfold cat_t; cbn [bind sep app]; rewrite <- !app_assoc; reflexivity|].
      split; [repeat (constructor; [lia|]); apply Forall_app; split; [apply flat_map_ascii|]; repeat (constructor; [lia|]); apply Forall_app; auto|].
      assert (LL : (length (44%Z :: 32%Z :: 34%Z :: flat_map js_char ps' ++ 34%Z :: 58%Z :: 32%Z :: by_ ++ b) = 6 + length (flat_map js_char ps') + length by_ + length b)%nat).
      { cbn [length]. rewrite app_length. cbn [length]. rewrite app_length. lia. }
      split; [rewrite LL; cbn [levels] in *; lia|].
      intros s ps x bx Rs Vs Ex Sx Rx fuel n r acc F N ND.
      cbn [levels] in F. rewrite LL in N. destruct n as [|n]; [lia|]. cbn [js_members]. change (34 =? 34) with true. cbv iota.
      rewrite Rs. cbn [bind].
      match goal with |- context [skip_ws (58 :: ?q)] => change (skip_ws (58 :: q)) with (58 :: q) end.
      change (58 =? 58) with true. cbv iota. rewrite starts_ws' by exact Sx. cbn [app]. rewrite Rx by (try lia; cbn; auto). cbn [bind].
      match goal with |- context [skip_ws (44 :: ?q)] => change (skip_ws (44 :: q)) with (44 :: q) end.
      change (44 =? 125) with false. change (44 =? 44) with true. cbv iota. rewrite Vs, (V _ _ _ _ ND).
      change (acc ++ (VStr s, x) :: (VStr s', y) :: l) with (acc ++ [(VStr s, x)] ++ (VStr s', y) :: l) in *. rewrite app_assoc in *.
      match goal with |- context [skip_ws (32 :: 34 :: ?q)] => change (skip_ws (32 :: 34 :: q)) with (34 :: q) end.
      rewrite <- app_assoc. cbn [app]. rewrite <- app_assoc.
      apply (R s' ps' y by_); auto; cbn [levels]; lia.
  Qed.

  Lemma plain_starts w : match w with [] => False | c :: _ => is_ws c = false /\ c <> 93 /\ c <> 125 end -> starts w.
  Proof. destruct w as [|c w]; [tauto|]. intros H. exists c, w. auto. Qed.

  Lemma starts_length b : starts b -> (0 < length b)%nat.
  Proof. intros (c & t & -> & _). cbn. lia. Qed.
  Lemma js_int_good z : Z.abs z < 10 ^ 4300 -> js_good (VInt z).
  Proof.
    intros H. set (i := codes (str_of_Z (Z.abs z))). destruct (codes_nonneg (Z.abs z) ltac:(lia)) as [N V]. fold i in N, V.
    assert (L : zlen i <= MAX_DIGITS) by (apply natural_length; [exact N|rewrite V; exact H|unfold MAX_DIGITS; lia]). clear H.
    set (n := mkNumber (if z <? 0 then [45] else []) i []).
    assert (E : codes (str_of_Z z) = n_sign n ++ n_int n ++ n_rest n).
    { unfold n. cbn [n_sign n_int n_rest]. rewrite app_nil_r. unfold i. destruct (Z.ltb_spec z 0).
      - rewrite codes_neg by lia. rewrite Z.abs_neq by lia. reflexivity.
      - rewrite Z.abs_eq by lia. reflexivity. }
    assert (NT : number_text n).
    { split; [unfold n; cbn; destruct (z <? 0); auto|]. split; [exact N|]. exists [], []. split; [reflexivity|]. split; left; reflexivity. }
    exists (codes (str_of_Z z)). cbn [js_enc]. unfold js_int. fold i. destruct (Z.ltb_spec MAX_DIGITS (zlen i)); [lia|].
    split; [reflexivity|]. rewrite E. split; [apply number_starts; exact NT|]. split; [apply number_ascii; exact NT|]. split; [apply starts_length, number_starts; exact NT|].
    intros [|fuel] r R F; [lia|]. rewrite js_dec_number by assumption. unfold number_value. cbn [n_rest n_int n_sign n].
    destruct (Z.ltb_spec MAX_DIGITS (zlen i)); [lia|]. rewrite V. cbn [bind].
    destruct (Z.ltb_spec z 0); do 3 f_equal; lia.
  Qed.

  Lemma not_nan_inf f : 0 <= f < 2 ^ 64 -> is_nan f = false -> f <> INF -> f <> 2 ^ 63 + INF -> f_expo f <> 2047.
  Proof.
    intros R N A B E. unfold is_nan in N. rewrite E in N. cbn [andb] in N. change (2047 =? 2047) with true in N. cbn [andb] in N.
    apply negb_false_iff in N. apply Z.eqb_eq in N. unfold f_expo, f_mant, INF in *.
    pose proof (Z.div_mod f (2 ^ 52) ltac:(lia)) as D. rewrite N in D.
    pose proof (Z.div_mod (f / 2 ^ 52) (2 ^ 11) ltac:(lia)) as D2. rewrite E in D2.
    assert (0 <= f / 2 ^ 52 / 2 ^ 11 < 2). { rewrite Z.div_div by lia. split; [apply Z.div_pos; lia|]. apply Z.div_lt_upper_bound; lia. }
    assert (f / 2 ^ 52 / 2 ^ 11 = 0 \/ f / 2 ^ 52 / 2 ^ 11 = 1) as [Q|Q] by lia; rewrite Q in D2; lia.
  Qed.

  Lemma js_float_good f : 0 <= f < 2 ^ 64 -> (is_nan f = true -> f = NAN) -> js_good (VFloat f).
  Proof.
    intros R N. unfold js_good. cbn [js_enc]. unfold js_float. destruct (is_nan f) eqn:Nan.
    { rewrite (N eq_refl). eexists. split; [reflexivity|]. split; [apply plain_starts; cbn; repeat split; discriminate|].
      split; [repeat constructor; cbn; lia|]. split; [cbn; lia|]. intros [|fuel] r _ F; [lia|]. reflexivity. }
    destruct (Z.eqb_spec f INF) as [->|A].
    { eexists. split; [reflexivity|]. split; [apply plain_starts; cbn; repeat split; discriminate|].
      split; [repeat constructor; cbn; lia|]. split; [cbn; lia|]. intros [|fuel] r _ F; [lia|]. reflexivity. }
    destruct (Z.eqb_spec f (2 ^ 63 + INF)) as [->|B].
    { eexists. split; [reflexivity|]. split; [apply plain_starts; cbn; repeat split; discriminate|].
      split; [repeat constructor; cbn; lia|]. split; [cbn; lia|]. intros [|fuel] r _ F; [lia|]. reflexivity. }
    destruct (FL f R (not_nan_inf f R Nan A B)) as (n & E & NT & NE & P).
    eexists. split; [reflexivity|]. rewrite E. split; [apply number_starts; exact NT|]. split; [apply number_ascii; exact NT|]. split; [apply starts_length, number_starts; exact NT|].
    intros [|fuel] r St F; [lia|]. rewrite js_dec_number by assumption. unfold number_value. rewrite <- E, P.
    destruct (n_rest n); [congruence|]. reflexivity.
  Qed.

  Lemma js_good_all v : everywhere json_here v -> js_good v.
  Proof.
    induction v as [|b|z|f|s|b|t b|l IH|d IH] using val_nested; intros W;
      pose proof (everywhere_here _ _ W) as [Wp Wh]; cbn [python_value] in Wp.
    - eexists. split; [reflexivity|]. split; [apply plain_starts; cbn; repeat split; discriminate|].
      split; [repeat constructor; cbn; lia|]. split; [cbn; lia|]. intros [|fuel] r _ F; [lia|]. reflexivity.
    - eexists. split; [reflexivity|]. split; [apply plain_starts; destruct b; cbn; repeat split; discriminate|].
      split; [destruct b; repeat constructor; cbn; lia|]. split; [destruct b; cbn; lia|]. intros [|fuel] r _ F; [lia|]. destruct b; reflexivity.
    - apply js_int_good; exact Wh.
    - apply js_float_good; assumption.
    - destruct (js_str_dec s Wh) as (ps & Es & Rs & Vs). eexists. split; [exact Es|]. split; [apply plain_starts; cbn; repeat split; discriminate|].
      split; [constructor; [lia|]; apply Forall_app; split; [apply flat_map_ascii|repeat constructor; lia]|]. split; [cbn; lia|].
      intros [|fuel] r _ F; [lia|]. cbn [app js_dec]. change (34 =? 34) with true. cbv iota. rewrite <- app_assoc. cbn [app]. rewrite Rs. cbn [bind].
      rewrite Vs. reflexivity.
    - contradiction.
    - contradiction.
    - apply everywhere_list in W. destruct W as [_ W].
      assert (G : Forall js_good l). { rewrite Forall_forall in *. auto. } clear IH W Wh.
      unfold js_good. cbn [js_enc]. fold (js_items_enc true l). destruct l as [|x l].
      { eexists. split; [reflexivity|]. split; [apply plain_starts; cbn; repeat split; discriminate|]. split; [repeat constructor; lia|]. split; [cbn; lia|].
        cbn [levels]. intros [|[|fuel]] r _ F; [lia|lia|]. reflexivity. }
      inversion G as [|? ? (bx & Ex & Sx & Ax & Dx & Rx) Gl]; subst. destruct (js_items_good l Gl) as (b & E & A & Db & R).
      rewrite js_items_cons, Ex, E. unfold cat_t. cbn [bind sep app].
      eexists. split; [reflexivity|]. split; [apply plain_starts; cbn; repeat split; discriminate|].
      split; [constructor; [lia|]; apply Forall_app; auto|]. split; [cbn [length levels] in *; rewrite app_length; lia|].
      intros [|fuel] r _ F; [lia|]. cbn [app length] in *. cbn [js_dec]. change (91 =? 34) with false. change (91 =? 91) with true. cbv iota.
      rewrite <- app_assoc. rewrite starts_ws by exact Sx. pose proof (R x bx Ex Sx Rx fuel (Datatypes.S (length (bx ++ b ++ r))) r) as RR.
      destruct fuel as [|fuel]; [cbn [levels] in F; lia|]. cbn [js_nest].
      destruct Sx as (c & t & -> & W & C1 & C2). cbn [app] in *. destruct (Z.eqb_spec c 93); [contradiction|].
      cbn [length] in *. rewrite RR by (try lia; rewrite !app_length; lia). reflexivity.
    - apply everywhere_dict in W. destruct W as [_ W]. destruct Wh as (WN & WK).
      assert (G : Forall (fun kv => js_good (snd kv)) d). { rewrite Forall_forall in *. intros kv J. specialize (W kv J). specialize (IH kv J). tauto. }
      assert (P : Forall (fun kv => json_here (fst kv)) d).
      { rewrite Forall_forall in *. intros kv J. specialize (W kv J). destruct W as [W _]. apply everywhere_here in W. exact W. }
      clear IH W. unfold js_good. cbn [js_enc]. fold (js_pairs_enc true d). destruct d as [|[k x] d].
      { eexists. split; [reflexivity|]. split; [apply plain_starts; cbn; repeat split; discriminate|]. split; [repeat constructor; lia|]. split; [cbn; lia|].
        cbn [levels]. intros [|[|fuel]] r _ F; [lia|lia|]. reflexivity. }
      inversion G as [|? ? (bx & Ex & Sx & Ax & Dx & Rx) Gl]; subst. inversion WK as [|? ? Kk Kl]; subst. inversion P as [|? ? Pk Pl]; subst. cbn [fst snd] in *.
      destruct (js_pairs_good d Gl Kl Pl) as (b & E & A & Db & R).
      destruct k as [| | | |s| | | |]; try contradiction. destruct (js_str_dec s (proj2 Pk)) as (ps & Es & Rs & Vs).
      rewrite js_pairs_cons, Ex, E. cbn [js_key]. rewrite Es. unfold cat_t. cbn [bind sep app]. 
      eexists. split; [reflexivity|]. split; [apply plain_starts; cbn; repeat split; discriminate|].
      split; [repeat (constructor; [lia|]); rewrite !Forall_app; repeat split; [apply flat_map_ascii|repeat constructor; lia|]; repeat (constructor; [lia|]); apply Forall_app; auto|].
      split; [cbn [length levels] in *; rewrite !app_length; cbn [length]; rewrite !app_length; lia|].
      intros [|fuel] r _ F; [lia|]. cbn [app length] in *. destruct fuel as [|fuel]; [cbn [levels] in F; lia|].
      remember (Datatypes.S fuel) as f eqn:Ef. cbn [js_dec]. change (123 =? 34) with false. change (123 =? 91) with false. change (123 =? 123) with true. cbv iota.
      match goal with |- context [skip_ws (34 :: ?q)] => change (skip_ws (34 :: q)) with (34 :: q) end. change (34 =? 125) with false. cbv iota.
      rewrite <- !app_assoc. cbn [app]. rewrite <- !app_assoc.
      rewrite (fun n HN => R s ps x bx Rs Vs Ex Sx Rx f n r [] ltac:(lia) HN WN); [subst f; reflexivity|]. cbn [length]. rewrite !app_length. cbn [length]. rewrite !app_length. lia.
  Qed.

  Lemma json_round_trip v : json_value v -> codec_round_trips (json fl) v.
  Proof.
    intros W. destruct (js_good_all v W) as (t & E & S & A & D & R). exists (map byte_of t). cbn [dumps loads json]. unfold js_dumps, js_loads, js_decode. rewrite E.
    split; [reflexivity|]. split; [destruct S as (c & t' & -> & _); discriminate|].
    rewrite utf8_ascii by exact A. rewrite <- (app_nil_r t) at 2. rewrite starts_ws by exact S. rewrite R by (cbn; auto; lia). reflexivity.
  Qed.
End Good.

(** ** The decoder on arbitrary input *)
Definition js_err (e : exn) : Prop := match e with ValueError _ => True | _ => False end.

Lemma skip_ws_length t : (length (skip_ws t) <= length t)%nat.
Proof. induction t as [|c t IH]; cbn [skip_ws]; [lia|]. destruct (is_ws c); cbn [length]; lia. Qed.
Lemma skip_ws_code t : forallb is_code t = true -> forallb is_code (skip_ws t) = true.
Proof. induction t as [|c t IH]; cbn [skip_ws]; [auto|]. intros H. destruct (is_ws c); [|exact H]. cbn [forallb] in H. apply andb_true_iff in H. tauto. Qed.

Definition js_span (t : text) (x : res (text * text)) : Prop :=
  match x with Ok (s, r) => (length r < length t)%nat /\ (forallb is_code t = true -> forallb is_code s = true /\ forallb is_code r = true) | Raise e => js_err e end.

Lemma prepend_span p t r x : (length r < length t)%nat -> (forallb is_code t = true -> is_code p = true /\ forallb is_code r = true) ->
  js_span r x -> js_span t (prepend p x).
Proof.
  intros L S X. unfold prepend. destruct x as [[s r']|e]; cbn [bind]; [|exact X]. destruct X as [X1 X2]. split; [lia|].
  intros H. destruct (S H) as [A B]. destruct (X2 B) as [C D]. cbn [forallb]. rewrite A, C, D. auto.
Qed.
Lemma hex_value_range c x : hex_value c = Some x -> 0 <= x < 16.
Proof.
  unfold hex_value. repeat match goal with |- context [if ?b then _ else _] => destruct b eqn:? end; intros [= <-]; lia.
Qed.
Lemma hex4_range a b c d u : hex4 a b c d = Some u -> 0 <= u < 65536.
Proof.
  unfold hex4. destruct (hex_value a) eqn:A; [|discriminate]. destruct (hex_value b) eqn:B; [|discriminate].
  destruct (hex_value c) eqn:C; [|discriminate]. destruct (hex_value d) eqn:D; [|discriminate]. intros H.
  apply hex_value_range in A, B, C, D. assert (E : u = 4096 * z + 256 * z0 + 16 * z1 + z2) by congruence. lia.
Qed.
Lemma unescape_code e p : unescape e = Some p -> is_code p = true.
Proof. unfold unescape. repeat match goal with |- context [if ?b then _ else _] => destruct b end; intros [= <-]; reflexivity. Qed.

Lemma js_string_span n : forall t, (length t <= n)%nat -> js_span t (js_string t).
Proof.
  induction n as [|n IH]; intros t L; [destruct t; [exact I|cbn in L; lia]|].
  destruct t as [|c r]; [exact I|]. cbn [js_string length] in *.
  destruct (c =? 34). { split; [cbn; lia|]. cbn [forallb]. rewrite andb_true_iff. tauto. }
  destruct (c =? 92).
  - destruct r as [|e r1]; [exact I|]. cbn [length] in L. destruct (e =? 117).
    + destruct r1 as [|h1 [|h2 [|h3 [|h4 r2]]]]; try exact I. cbn [length] in L.
      destruct (hex4 h1 h2 h3 h4) as [u|] eqn:U; [|exact I]. apply hex4_range in U.
      assert (A : js_span (c :: e :: h1 :: h2 :: h3 :: h4 :: r2) (prepend u (js_string r2))).
      { eapply prepend_span; [| |apply IH]; [cbn [length]; lia| |lia].
        intros H. cbn [forallb] in H. rewrite !andb_true_iff in H. split; [unfold is_code; lia|tauto]. }
      destruct (is_high u) eqn:Hi; [|exact A].
      destruct r2 as [|b [|w [|g1 [|g2 [|g3 [|g4 r3]]]]]]; try exact A. cbn [length] in L.
      destruct ((b =? 92) && (w =? 117)); [|exact A]. destruct (hex4 g1 g2 g3 g4) as [v|] eqn:V; [|exact I].
      destruct (is_low v) eqn:Lo; [|exact A].
      eapply prepend_span; [| |apply IH]; [cbn [length]; lia| |lia].
      intros H. cbn [forallb] in H. rewrite !andb_true_iff in H. split; [unfold is_code, is_high, is_low in *; lia|tauto].
    + destruct (unescape e) as [p|] eqn:Un; [|exact I]. eapply prepend_span; [| |apply IH]; [cbn [length]; lia| |lia].
      intros H. cbn [forallb] in H. rewrite !andb_true_iff in H. split; [|tauto]. eapply unescape_code; exact Un.
  - destruct (c <? 32); [exact I|]. eapply prepend_span; [| |apply IH]; [cbn [length]; lia| |lia].
    intros H. cbn [forallb] in H. apply andb_true_iff in H. exact H.
Qed.

Lemma str_val_python ps : forallb is_code ps = true -> everywhere python_value (str_val ps).
Proof.
  intros H. split; [|exact I]. unfold str_val. cbn [python_value]. rewrite encode_decode_str. unfold is_str. rewrite str_points_encode by exact H. reflexivity.
Qed.

Definition floats_bounded (fl : floats) : Prop := forall t, 0 <= float_of fl t < 2 ^ 64.

Section Total.
  Context (fl : floats) (FB : floats_bounded fl).
  Definition js_decodes (t : text) (x : res (val * text)) : Prop :=
    match x with
    | Ok (v, r) => (length r < length t)%nat /\ (forallb is_code t = true -> everywhere python_value v /\ forallb is_code r = true)
    | Raise e => js_err e
    end.

  Lemma strip_suffix p : forall t r, strip p t = Some r -> t = p ++ r.
  Proof.
    induction p as [|c p IH]; intros t r; cbn [strip]; [intros [= ->]; reflexivity|].
    destruct t as [|x t]; [discriminate|]. destruct (Z.eqb_spec c x); [subst|discriminate]. intros H. rewrite (IH _ _ H) at 1. reflexivity.
  Qed.
  Lemma span_digits_suffix t : forall d r, span_digits t = (d, r) -> t = d ++ r.
  Proof.
    induction t as [|c t IH]; intros d r; cbn [span_digits]; [intros [= <- <-]; reflexivity|].
    destruct (is_digit c); [|intros [= <- <-]; reflexivity]. destruct (span_digits t) as [d' r'] eqn:E. intros [= <- <-]. cbn [app].
    f_equal. apply IH. reflexivity.
  Qed.
  Lemma js_number_suffix t n r : js_number t = Some (n, r) -> t = (n_sign n ++ n_int n ++ n_rest n) ++ r /\ n_int n <> [].
  Proof.
    unfold js_number. destruct (js_sign t) as [s t1] eqn:ES. destruct (js_natural t1) as [[i t2]|] eqn:EI; [|discriminate].
    destruct (js_frac t2) as [f t3] eqn:EF. destruct (js_exp t3) as [e t4] eqn:EE. intros [= <- <-]. cbn [n_sign n_int n_rest].
    assert (A : t = s ++ t1).
    { unfold js_sign in ES. destruct t as [|c t]; [injection ES as <- <-; reflexivity|]. destruct (Z.eqb_spec c 45); injection ES as <- <-; [subst; reflexivity|reflexivity]. }
    assert (B : t1 = i ++ t2 /\ i <> []).
    { unfold js_natural in EI. destruct t1 as [|c t1]; [discriminate|]. destruct (Z.eqb_spec c 48); [injection EI as <- <-; subst; split; [reflexivity|discriminate]|].
      destruct (is_digit c) eqn:D; [|discriminate]. injection EI as EI. split; [apply span_digits_suffix; exact EI|].
      cbn [span_digits] in EI. rewrite D in EI. destruct (span_digits t1). injection EI as <- _. discriminate. }
    assert (C : t2 = f ++ t3).
    { unfold js_frac in EF. destruct t2 as [|c t2]; [injection EF as <- <-; reflexivity|]. destruct (Z.eqb_spec c 46); [|injection EF as <- <-; reflexivity].
      destruct (span_digits t2) as [d r'] eqn:Sp. apply span_digits_suffix in Sp. destruct d; injection EF as <- <-; subst; reflexivity. }
    assert (D : t3 = e ++ t4).
    { unfold js_exp in EE. destruct t3 as [|c t3]; [injection EE as <- <-; reflexivity|]. destruct ((c =? 101) || (c =? 69)); [|injection EE as <- <-; reflexivity].
      destruct t3 as [|x t3].
      - cbn in EE. injection EE as <- <-. reflexivity.
      - destruct ((x =? 43) || (x =? 45)).
        + destruct (span_digits t3) as [d r'] eqn:Sp. apply span_digits_suffix in Sp. destruct d; injection EE as <- <-; subst; reflexivity.
        + destruct (span_digits (x :: t3)) as [d r'] eqn:Sp. apply span_digits_suffix in Sp. destruct d; injection EE as <- <-; [reflexivity|]. rewrite Sp. reflexivity. }
    destruct B as [B1 B2]. split; [|exact B2]. rewrite A, B1, C, D, <- !app_assoc. reflexivity.
  Qed.

  Lemma js_word_total t : js_decodes t (js_word fl t).
  Proof.
    unfold js_word.
    assert (K : forall p v r, strip p t = Some r -> p <> [] -> everywhere python_value v -> js_decodes t (Ok (v, r))).
    { intros p v r E N P. apply strip_suffix in E. subst t. split; [rewrite app_length; destruct p; [congruence|cbn; lia]|].
      intros H. rewrite forallb_app in H. apply andb_true_iff in H. tauto. }
    assert (PF : forall f, 0 <= f < 2 ^ 64 -> everywhere python_value (VFloat f)) by (intros f H; split; [exact H|exact I]).
    destruct (strip (codes "null") t) eqn:E1; [eapply K; [exact E1|discriminate|split; exact I]|].
    destruct (strip (codes "true") t) eqn:E2; [eapply K; [exact E2|discriminate|split; exact I]|].
    destruct (strip (codes "false") t) eqn:E3; [eapply K; [exact E3|discriminate|split; exact I]|].
    destruct (strip (codes "NaN") t) eqn:E4; [eapply K; [exact E4|discriminate|apply PF; vm_compute; split; congruence]|].
    destruct (strip (codes "Infinity") t) eqn:E5; [eapply K; [exact E5|discriminate|apply PF; vm_compute; split; congruence]|].
    destruct (strip (codes "-Infinity") t) eqn:E6; [eapply K; [exact E6|discriminate|apply PF; vm_compute; split; congruence]|].
    clear K E1 E2 E3 E4 E5 E6. destruct (js_number t) as [[n r]|] eqn:E; [|exact I]. apply js_number_suffix in E. destruct E as [E NE].
    assert (L : (length r < length t)%nat). { subst t. rewrite !app_length. destruct (n_int n); [congruence|cbn; lia]. }
    assert (Sr : forallb is_code t = true -> forallb is_code r = true).
    { intros H. subst t. rewrite forallb_app in H. apply andb_true_iff in H. tauto. }
    unfold number_value. destruct (n_rest n); [destruct (MAX_DIGITS <? zlen (n_int n)); [exact I|]|]; cbn [bind]; (split; [exact L|]; intros H; split; [|auto]).
    - split; exact I.
    - apply PF, FB.
  Qed.

  Section Loop.
    Context (dec : text -> res (val * text)) (n : nat) (D : forall c, (length c <= n)%nat -> js_decodes c (dec c)).
    Lemma js_elems_total : forall k t, (length t <= n)%nat -> (length t < k)%nat ->
      match js_elems dec k t with
      | Ok (l, r) => (length r < length t)%nat /\ (forallb is_code t = true -> Forall (everywhere python_value) l /\ forallb is_code r = true)
      | Raise e => js_err e
      end.
    Proof.
      intros k. induction k as [|k IH]; intros t L K; [lia|]. cbn [js_elems]. specialize (D t L) as Dt. unfold js_decodes in Dt.
      destruct (dec t) as [[x r]|e]; cbn [bind]; [|exact Dt]. destruct Dt as [Lr P]. pose proof (skip_ws_length r) as W. pose proof (skip_ws_code r) as WS.
      destruct (skip_ws r) as [|c r1]; [exact I|]. cbn [length forallb] in *. destruct (c =? 93).
      { split; [lia|]. intros H. destruct (P H) as [Px Pr]. specialize (WS Pr). apply andb_true_iff in WS. split; [constructor; [tauto|constructor]|tauto]. }
      destruct (c =? 44); [|exact I]. pose proof (skip_ws_length r1) as W1. pose proof (skip_ws_code r1) as WS1.
      specialize (IH (skip_ws r1)). destruct (js_elems dec k (skip_ws r1)) as [[l r2]|e]; cbn [bind]; [|apply IH; lia].
      destruct IH as [A B]; [lia|lia|]. split; [lia|]. intros H. destruct (P H) as [Px Pr]. specialize (WS Pr). apply andb_true_iff in WS.
      destruct (B (WS1 (proj2 WS))) as [Pl P2]. split; [constructor; assumption|assumption].
    Qed.
    Definition pv2 (kv : val * val) := everywhere python_value (fst kv) /\ everywhere python_value (snd kv).
    Lemma vset_pv2 k x d : everywhere python_value k -> everywhere python_value x -> Forall pv2 d -> Forall pv2 (vset k x d).
    Proof.
      unfold vset. intros Hk Hx. induction 1 as [|[k' x'] d B C IH]; cbn [dset]; [constructor; [split; assumption|constructor]|].
      destruct (key_eqb k k'); constructor; unfold pv2 in *; cbn [fst snd] in *; tauto.
    Qed.
    Lemma js_members_total : forall k d t, (length t <= n)%nat -> (length t < k)%nat ->
      match js_members dec k d t with
      | Ok (d', r) => (length r < length t)%nat /\ (forallb is_code t = true -> Forall pv2 d -> Forall pv2 d' /\ forallb is_code r = true)
      | Raise e => js_err e
      end.
    Proof.
      intros k. induction k as [|k IH]; intros d t L K; [lia|]. cbn [js_members]. destruct t as [|q r]; [exact I|]. destruct (q =? 34); [|exact I].
      cbn [length] in *. pose proof (js_string_span (length r) r ltac:(lia)) as S. destruct (js_string r) as [[s r1]|e]; cbn [bind]; [|exact S].
      destruct S as [S1 S2]. pose proof (skip_ws_length r1) as W1. pose proof (skip_ws_code r1) as WS1. destruct (skip_ws r1) as [|c r2]; [exact I|].
      destruct (c =? 58); [|exact I]. cbn [length forallb] in *. pose proof (skip_ws_length r2) as W2. pose proof (skip_ws_code r2) as WS2.
      specialize (D (skip_ws r2) ltac:(lia)) as Dt. unfold js_decodes in Dt. destruct (dec (skip_ws r2)) as [[x r3]|e]; cbn [bind]; [|exact Dt].
      destruct Dt as [L3 P3]. pose proof (skip_ws_length r3) as W3. pose proof (skip_ws_code r3) as WS3. destruct (skip_ws r3) as [|e r4]; [exact I|].
      cbn [length forallb] in *. cbn zeta.
      assert (G : is_code q && forallb is_code r = true -> Forall pv2 d -> Forall pv2 (vset (str_val s) x d) /\ forallb is_code r4 = true).
      { intros H Hd. apply andb_true_iff in H. destruct H as [_ H]. destruct (S2 H) as [Ss Sr]. specialize (WS1 Sr). apply andb_true_iff in WS1.
        destruct (P3 (WS2 (proj2 WS1))) as [Px P4]. specialize (WS3 P4). apply andb_true_iff in WS3. split; [|tauto].
        apply vset_pv2; [apply str_val_python; exact Ss|exact Px|exact Hd]. }
      destruct (e =? 125). { split; [lia|exact G]. }
      destruct (e =? 44); [|exact I]. pose proof (skip_ws_length r4) as W4. pose proof (skip_ws_code r4) as WS4.
      specialize (IH (vset (str_val s) x d) (skip_ws r4)). destruct (js_members dec k (vset (str_val s) x d) (skip_ws r4)) as [[d' r5]|e']; [|apply IH; lia].
      destruct IH as [A B]; [lia|lia|]. split; [lia|]. intros H Hd. destruct (G H Hd) as [G1 G2]. apply B; auto.
    Qed.
  End Loop.

  Lemma js_dec_total fuel : forall t, (length t < fuel)%nat -> js_decodes t (js_dec fl fuel t).
  Proof.
    induction fuel as [|f IH]; intros t L; [lia|]. destruct t as [|c r]; [exact I|]. cbn [js_dec length] in *.
    assert (D : forall c, (length c <= length r)%nat -> js_decodes c (js_dec fl f c)) by (intros; apply IH; lia).
    destruct (c =? 34).
    { pose proof (js_string_span (length r) r ltac:(lia)) as S. destruct (js_string r) as [[s r1]|e]; cbn [bind]; [|exact S]. destruct S as [S1 S2].
      split; [cbn; lia|]. cbn [forallb]. rewrite andb_true_iff. intros [_ H]. destruct (S2 H). split; [apply str_val_python; assumption|assumption]. }
    pose proof (skip_ws_length r) as W. pose proof (skip_ws_code r) as WS.
    destruct (c =? 91).
    { destruct f as [|f']; [lia|]. cbn [js_nest]. set (f := S f') in *. destruct (skip_ws r) as [|e r1]; [exact I|]. destruct (e =? 93).
      - cbn [length forallb] in *. split; [cbn; lia|]. cbn [forallb]. rewrite andb_true_iff. intros [_ H]. specialize (WS H). apply andb_true_iff in WS. split; [repeat split|tauto].
      - pose proof (js_elems_total _ _ D (S (length r)) (e :: r1) ltac:(lia) ltac:(lia)) as T. destruct (js_elems (js_dec fl f) (S (length r)) (e :: r1)) as [[l r2]|x]; cbn [bind]; [|exact T].
        destruct T as [T1 T2]. split; [cbn [length] in *; lia|]. cbn [forallb]. rewrite andb_true_iff. intros [_ H]. destruct (T2 (WS H)). split; [|assumption].
        apply everywhere_list. split; [exact I|assumption]. }
    destruct (c =? 123).
    { destruct f as [|f']; [lia|]. cbn [js_nest]. set (f := S f') in *. destruct (skip_ws r) as [|e r1]; [exact I|]. destruct (e =? 125).
      - cbn [length forallb] in *. split; [cbn; lia|]. cbn [forallb]. rewrite andb_true_iff. intros [_ H]. specialize (WS H). apply andb_true_iff in WS. split; [repeat split|tauto].
      - pose proof (js_members_total _ _ D (S (length r)) [] (e :: r1) ltac:(lia) ltac:(lia)) as T. destruct (js_members (js_dec fl f) (S (length r)) [] (e :: r1)) as [[l r2]|x]; cbn [bind]; [|exact T].
        destruct T as [T1 T2]. split; [cbn [length] in *; lia|]. cbn [forallb]. rewrite andb_true_iff. intros [_ H]. destruct (T2 (WS H) (Forall_nil _)). split; [|assumption].
        apply everywhere_dict. split; [exact I|assumption]. }
    apply js_word_total.
  Qed.

  (** On any octets [loads] returns a Python value or raises ValueError. *)
  Lemma js_loads_total b : (exists v, js_loads fl b = Ok v /\ everywhere python_value v) \/ (exists m, js_loads fl b = Raise (ValueError m)).
  Proof.
    unfold js_loads, js_decode. destruct (str_points b) as [t|] eqn:U; [|eauto]. apply encode_str_points in U. destruct U as [_ U].
    pose proof (skip_ws_length t). pose proof (js_dec_total (S (length t)) (skip_ws t) ltac:(lia)) as T.
    destruct (js_dec fl (S (length t)) (skip_ws t)) as [[v r]|e]; cbn [bind].
    - destruct T as [_ T]. destruct (T (skip_ws_code _ U)) as [P _]. destruct (skip_ws r); [left; eauto|right; unfold js_error; eauto].
    - destruct e; try contradiction; eauto.
  Qed.
End Total.
