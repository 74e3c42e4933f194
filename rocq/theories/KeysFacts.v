(** * KeysFacts: what JSON does to dict keys. *)
From Coq Require Import String Ascii List ZArith Bool Lia.
From Verif Require Import PyBase Messages Parse SpecSchema RoundTripFacts SerializerFacts Rawsocket Encoding EncodingFacts Utf8 CodecBase Serializer Json JsonFacts Float FloatFacts SpecCodec CodecFacts Codecs CodecsFacts SpecKeys.
Import ListNotations.
Local Open Scope Z_scope.
Local Open Scope list_scope.

Definition plain_char (c : Z) : Prop := 32 <= c <= 126 /\ c <> 34 /\ c <> 92.
Lemma js_char_plain c : plain_char c -> js_char c = [c].
Proof.
  intros (R & A & B). unfold js_char. rewrite (proj2 (Z.eqb_neq c 34)), (proj2 (Z.eqb_neq c 92)) by assumption.
  rewrite (proj2 (Z.eqb_neq c 10)), (proj2 (Z.eqb_neq c 13)), (proj2 (Z.eqb_neq c 9)), (proj2 (Z.eqb_neq c 12)), (proj2 (Z.eqb_neq c 8)) by lia.
  destruct (Z.leb_spec 32 c); [|lia]. destruct (Z.leb_spec c 126); [reflexivity|lia].
Qed.
Lemma js_str_plain t : Forall plain_char t -> js_str (decode_str (map byte_of t)) = Ok ([34] ++ t ++ [34]).
Proof.
  intros H. unfold js_str. rewrite encode_decode_str. rewrite utf8_ascii.
  - f_equal. f_equal. f_equal. induction H as [|c t C _ IH]; [reflexivity|]. cbn [flat_map]. rewrite js_char_plain by exact C. rewrite IH. reflexivity.
  - unfold ascii_text. eapply Forall_impl; [|exact H]. intros c (R & _). lia.
Qed.
Ltac words := match goal with |- Forall _ ?t => let t' := eval vm_compute in t in change t with t' end; repeat (apply Forall_nil || (apply Forall_cons; [repeat split; vm_compute; intros Q; discriminate Q|])).
Lemma digits_plain d : digits d -> Forall plain_char d.
Proof. apply Forall_impl. intros c C. unfold is_digit in C. apply andb_true_iff in C. unfold plain_char. lia. Qed.
Lemma natural_plain i : natural_text i -> Forall plain_char i.
Proof. intros [->|(c & r & -> & C & D)]; repeat constructor; try lia. apply digits_plain. exact D. Qed.
Lemma number_plain n : number_text n -> Forall plain_char (n_sign n ++ n_int n ++ n_rest n).
Proof.
  intros (S & I0 & f & e & -> & F & X). rewrite !Forall_app. repeat split.
  - destruct S as [->| ->]; repeat constructor; lia.
  - apply natural_plain; exact I0.
  - destruct F as [->|(d & -> & _ & D)]; constructor; [unfold plain_char; lia|apply digits_plain; exact D].
  - destruct X as [->|(x & s & d & -> & X & S' & _ & D)]; constructor; [destruct X; subst; unfold plain_char; lia|].
    apply Forall_app. split; [|apply digits_plain; exact D]. destruct S' as [->|[->| ->]]; repeat constructor; lia.
Qed.
Lemma int_plain z : Forall plain_char (codes (str_of_Z z)).
Proof.
  destruct (Z.ltb_spec z 0) as [N|N].
  - rewrite codes_neg by exact N. constructor; [unfold plain_char; lia|]. apply natural_plain. apply (codes_nonneg (- z)). lia.
  - apply natural_plain. apply (codes_nonneg z N).
Qed.
Lemma float_plain f : 0 <= f < 2 ^ 64 -> Forall plain_char (js_float python_floats f).
Proof.
  intros R. unfold js_float. destruct (is_nan f) eqn:N; [words|].
  destruct (Z.eqb_spec f INF) as [->|A]; [words|]. destruct (Z.eqb_spec f (2 ^ 63 + INF)) as [->|B]; [words|].
  destruct (python_floats_ok f R (not_nan_inf f R N A B)) as (n & -> & NT & _). apply number_plain, NT.
Qed.
Lemma dumps_json v : dumps python_json v = (let! t := js_enc python_floats v in Ok (map byte_of t)). Proof. reflexivity. Qed.
Lemma js_key_name k : everywhere python_value k -> js_key python_floats (name_key k) = js_key python_floats k.
Proof.
  intros W. unfold name_key. destruct k as [|b|z|f|s|b0|l|d|t b0]; cbn [key_name]; try reflexivity; rewrite dumps_json; cbn [js_enc js_key bind].
  - rewrite js_str_plain by (destruct b; words). reflexivity.
  - unfold js_int. destruct (MAX_DIGITS <? _) eqn:M; cbn [bind js_key].
    + unfold js_int. rewrite M. reflexivity.
    + rewrite js_str_plain by apply int_plain. reflexivity.
  - rewrite js_str_plain; [reflexivity|]. apply float_plain. apply everywhere_here in W. exact W.
Qed.
Lemma named_enc v : everywhere python_value v -> js_enc python_floats (named v) = js_enc python_floats v.
Proof.
  induction v as [|b|z|f|s|b|t b|l IH|d IH] using val_nested; intros W; try reflexivity.
  - apply everywhere_list in W. destruct W as [_ W]. cbn [named js_enc]. f_equal. change (js_items_enc python_floats true (map named l) = js_items_enc python_floats true l).
    generalize true. induction l as [|x l IHl]; intros first; [reflexivity|]. inversion IH as [|? ? Hx Hl]; subst. inversion W as [|? ? Wx Wl]; subst.
    cbn [map]. rewrite !js_items_cons. rewrite Hx by exact Wx. rewrite IHl by assumption. reflexivity.
  - apply everywhere_dict in W. destruct W as [_ W]. cbn [named js_enc]. f_equal.
    change (js_pairs_enc python_floats true (map (fun kv => (name_key (fst kv), named (snd kv))) d) = js_pairs_enc python_floats true d).
    generalize true. induction d as [|[k x] d IHd]; intros first; [reflexivity|]. inversion IH as [|? ? Hx Hd]; subst. inversion W as [|? ? Wx Wd]; subst. cbn [fst snd] in *.
    cbn [map fst snd]. rewrite !js_pairs_cons. rewrite js_key_name by apply Wx. destruct Hx as [_ Hx]. rewrite Hx by apply Wx. rewrite IHd by assumption. reflexivity.
Qed.
Lemma named_text v : everywhere python_value v -> dumps python_json (named v) = dumps python_json v.
Proof. intros W. rewrite !dumps_json, named_enc by exact W. reflexivity. Qed.
Lemma named_read v b : everywhere python_value v -> json_value (named v) -> dumps python_json v = Ok b -> loads python_json b = Ok (named v).
Proof.
  intros W J E. rewrite <- named_text in E by exact W. destruct (json_round_trip python_floats python_floats_ok (named v) J) as (b' & E' & L). change (dumps (json python_floats)) with (dumps python_json) in E'.
  assert (b' = b) by congruence. subst b'. apply L.
Qed.
Lemma named_message m m' : everywhere python_value (VList (marshal m)) -> VList (marshal m') = named (VList (marshal m)) -> wf_message m' -> json_value (VList (marshal m')) ->
  exists b, serialize python_json m = Ok b /\ deserialize python_json b = Ok (normalise m').
Proof.
  intros W E WF J. destruct (json_serializer m' WF J) as (b & S & D). exists b. split; [|exact D]. unfold serialize in *. rewrite E in S. rewrite <- named_text by exact W. exact S.
Qed.
