(** * RawsocketFacts: lemmas for C15-C19. *)
From Coq Require Import ZArith Lia Ascii String List Bool.
From Verif Require Import PyBase Rawsocket SpecFrames BitFacts.
Import ListNotations.
Local Open Scope Z_scope.
Ltac Zify.zify_post_hook ::= Z.div_mod_to_equations.

(** Little-endian value of a list of octets. *)
Fixpoint le_value (rb : bytes) : Z :=
  match rb with [] => 0 | b :: rb' => byte_Z b + 256 * le_value rb' end.

Lemma le_value_nonneg rb : 0 <= le_value rb.
Proof. induction rb as [|b rb IH]; cbn [le_value]; [lia|]. pose proof (byte_range b). lia. Qed.

Lemma bytes_to_int_loop_spec rb : forall n s, 0 <= s -> 0 <= n < 2 ^ s ->
  bytes_to_int_loop rb n s = n + 2 ^ s * le_value rb.
Proof.
  induction rb as [|b rb IH]; intros n s Hs Hn; cbn [bytes_to_int_loop le_value]; [lia|].
  pose proof (byte_range b) as Hb. rewrite lor_shiftl_add by lia.
  assert (E : 2 ^ (s + 8) = 256 * 2 ^ s) by (rewrite Z.pow_add_r by lia; change (2 ^ 8) with 256; lia).
  rewrite IH by (rewrite ?E; nia). rewrite E. ring.
Qed.

Lemma bytes_to_int_spec b : bytes_to_int b = le_value (rev b).
Proof.
  unfold bytes_to_int. rewrite bytes_to_int_loop_spec; [|lia|cbn; lia].
  change (2 ^ 0) with 1. lia.
Qed.

Lemma bytes3 a b c : bytes_to_int [a; b; c] = byte_Z a * 65536 + byte_Z b * 256 + byte_Z c.
Proof. rewrite bytes_to_int_spec. cbn [rev app le_value]. lia. Qed.

Definition octet (z : Z) : ascii := ascii_of_N (Z.to_N z).
Lemma octet_Z z : 0 <= z < 256 -> byte_Z (octet z) = z.
Proof. apply byte_of_Z. Qed.

Lemma int_to_bytes_spec i :
  int_to_bytes i = Ok [octet (i / 65536 mod 256); octet (i / 256 mod 256); octet (i mod 256)].
Proof.
  unfold int_to_bytes. rewrite !land_255, !shiftr_div by lia.
  change (2 ^ 16) with 65536. change (2 ^ 8) with 256.
  rewrite py_bytes_ok; [reflexivity|]. repeat constructor; lia.
Qed.

Lemma header_to_bytes_ok k n : 0 <= k < 256 ->
  header_to_bytes (mkHeader k n) = Ok [octet k; octet (n / 65536 mod 256); octet (n / 256 mod 256); octet (n mod 256)].
Proof.
  intros Hk. unfold header_to_bytes. cbn [hd_length hd_kind]. rewrite int_to_bytes_spec. cbn [bind].
  rewrite !octet_Z by lia. rewrite py_bytes_ok; [reflexivity|]. repeat constructor; lia.
Qed.

Lemma header_to_bytes_bad k n : ~ (0 <= k < 256) -> exists s, header_to_bytes (mkHeader k n) = Raise (ValueError s).
Proof.
  intros Hk. unfold header_to_bytes. cbn [hd_length hd_kind]. rewrite int_to_bytes_spec. cbn [bind].
  apply (py_bytes_bad k [] [byte_Z (octet (n / 65536 mod 256)); byte_Z (octet (n / 256 mod 256)); byte_Z (octet (n mod 256))]);
    [constructor|exact Hk].
Qed.

(** Decoding an encoded header: the length comes back modulo 2**24. *)
Lemma header_decode k n : 0 <= k < 256 ->
  exists b, header_to_bytes (mkHeader k n) = Ok b /\ length b = 4%nat /\
            header_from_bytes b = Ok (mkHeader k (n mod 2 ^ 24)).
Proof.
  intros Hk. rewrite header_to_bytes_ok by exact Hk. eexists. split; [reflexivity|]. split; [reflexivity|].
  cbn [header_from_bytes]. rewrite bytes3, !octet_Z by lia. change (2 ^ 24) with 16777216.
  f_equal. f_equal. lia.
Qed.

Lemma header_round_trip k n : 0 <= k < 256 -> 0 <= n < 2 ^ 24 ->
  exists b, header_to_bytes (mkHeader k n) = Ok b /\ length b = 4%nat /\
            header_from_bytes b = Ok (mkHeader k n).
Proof.
  intros Hk Hn. destruct (header_decode k n Hk) as (b & H1 & H2 & H3). exists b.
  rewrite Z.mod_small in H3 by exact Hn. auto.
Qed.

Lemma header_surjective b : length b = 4%nat ->
  exists k n, 0 <= k < 256 /\ 0 <= n < 2 ^ 24 /\ header_to_bytes (mkHeader k n) = Ok b /\
    forall k' n', 0 <= k' < 256 -> 0 <= n' < 2 ^ 24 -> header_to_bytes (mkHeader k' n') = Ok b -> k' = k /\ n' = n.
Proof.
  destruct b as [|a [|b [|c [|d [|]]]]]; try discriminate. intros _.
  pose proof (byte_range a) as Ha. pose proof (byte_range b) as Hb. pose proof (byte_range c) as Hc.
  pose proof (byte_range d) as Hd.
  exists (byte_Z a), (byte_Z b * 65536 + byte_Z c * 256 + byte_Z d).
  split; [exact Ha|]. change (2 ^ 24) with 16777216. split; [lia|]. split.
  - rewrite header_to_bytes_ok by exact Ha.
    replace ((byte_Z b * 65536 + byte_Z c * 256 + byte_Z d) / 65536 mod 256) with (byte_Z b) by lia.
    replace ((byte_Z b * 65536 + byte_Z c * 256 + byte_Z d) / 256 mod 256) with (byte_Z c) by lia.
    replace ((byte_Z b * 65536 + byte_Z c * 256 + byte_Z d) mod 256) with (byte_Z d) by lia.
    unfold octet. rewrite !byte_to_ascii. reflexivity.
  - intros k' n' Hk' Hn' H. destruct (header_round_trip k' n' Hk' Hn') as (x & Hx & _ & Hf).
    rewrite H in Hx. injection Hx as <-. cbn [header_from_bytes] in Hf. rewrite bytes3 in Hf.
    injection Hf as <- <-. auto.
Qed.

(** ** Framed streams *)
Lemma header_split k n b : header_to_bytes (mkHeader k n) = Ok b -> 0 <= k < 256 ->
  exists a1 a2 a3 a4, b = [a1; a2; a3; a4].
Proof.
  intros H Hk. rewrite header_to_bytes_ok in H by exact Hk. injection H as <-. eauto 6.
Qed.

Lemma take_frame_ok f rest : frame_ok f ->
  exists a, send_frame f = Ok a /\ take_frame (a ++ rest) = Some (f, rest) /\ (4 <= length a)%nat.
Proof.
  intros [Hk Hn]. destruct f as [k body]. cbn [fst snd] in *. unfold send_frame. cbn [fst snd].
  destruct (header_round_trip k (Z.of_nat (length body)) Hk) as (b & H1 & H2 & H3); [lia|].
  rewrite H1. cbn [bind]. destruct (header_split _ _ _ H1 Hk) as (a1 & a2 & a3 & a4 & ->).
  eexists. split; [reflexivity|]. split; [|cbn; lia].
  cbn [app take_frame]. rewrite H3. cbn [hd_length hd_kind]. rewrite Nat2Z.id.
  rewrite app_length. replace (length body <=? length body + length rest)%nat with true
    by (symmetry; apply Nat.leb_le; lia).
  rewrite firstn_app, Nat.sub_diag, firstn_O, firstn_all, app_nil_r.
  rewrite skipn_app, Nat.sub_diag, skipn_all. reflexivity.
Qed.

(** A strict prefix of a frame is recognised as incomplete. *)
Lemma take_frame_prefix f a p q : frame_ok f -> send_frame f = Ok a -> a = p ++ q -> q <> [] -> take_frame p = None.
Proof.
  intros [Hk Hn] Ha Hpq Hq. destruct f as [k body]. unfold send_frame in Ha. cbn [fst snd] in *.
  destruct (header_round_trip k (Z.of_nat (length body)) Hk) as (b & H1 & H2 & H3); [lia|].
  rewrite H1 in Ha. cbn [bind] in Ha. destruct (header_split _ _ _ H1 Hk) as (a1 & a2 & a3 & a4 & ->).
  injection Ha as <-.
  destruct p as [|p1 [|p2 [|p3 [|p4 p]]]]; try reflexivity.
  cbn [app] in Hpq. injection Hpq as <- <- <- <- Hbody.
  cbn [take_frame]. rewrite H3. cbn [hd_length]. rewrite Nat2Z.id.
  replace (length body <=? length p)%nat with false; [reflexivity|]. symmetry. apply Nat.leb_gt.
  rewrite Hbody, app_length. destruct q; [congruence|cbn; lia].
Qed.

Lemma take_frames_ok fs : Forall frame_ok fs -> forall rest, take_frame rest = None ->
  exists s, send_frames fs = Ok s /\
    forall fuel, (length fs < fuel)%nat -> take_frames fuel (s ++ rest) = (fs, rest).
Proof.
  induction 1 as [|f fs Hf Hfs IH]; intros rest Hrest.
  - exists []. split; [reflexivity|]. intros [|fuel] Hl; [lia|]. cbn [take_frames app]. rewrite Hrest. reflexivity.
  - destruct (IH rest Hrest) as (s & Hs & Ht).
    destruct (take_frame_ok f (s ++ rest) Hf) as (a & Ha & Htk & _).
    exists (a ++ s). cbn [send_frames]. rewrite Ha, Hs. split; [reflexivity|].
    intros [|fuel] Hl; [lia|]. cbn [take_frames]. rewrite <- app_assoc, Htk, Ht by (cbn in Hl; lia). reflexivity.
Qed.

(** ** Handshake *)
Lemma handshake_byte p n : 512 <= n < 2 ^ 25 ->
  Z.lor (Z.shiftl (Z.log2 n - 9) 4) (Z.land p 15) = (Z.log2 n - 9) * 16 + p mod 16 /\ 9 <= Z.log2 n < 25.
Proof.
  intros Hn. assert (H9 : 9 <= Z.log2 n < 25).
  { split; [apply Z.log2_le_pow2; lia|apply Z.log2_lt_pow2; lia]. }
  split; [|exact H9]. rewrite land_15, Z.lor_comm, lor_shiftl_add by lia. change (2 ^ 4) with 16. lia.
Qed.

Lemma handshake_ok p n : 512 <= n < 2 ^ 25 ->
  exists b, send_handshake (mkHandshake p n) = Ok b /\ length b = 4%nat /\
            receive_handshake b = Ok (mkHandshake (p mod 16) (2 ^ Z.log2 n)).
Proof.
  intros Hn. destruct (handshake_byte p n Hn) as [Hb Hl]. unfold send_handshake. cbn [hs_max_msg_size hs_protocol].
  replace (n <=? 0) with false by (symmetry; apply Z.leb_gt; lia).
  rewrite Hb. remember (Z.log2 n) as k.
  rewrite py_bytes_ok by (repeat constructor; unfold MAGIC; lia).
  eexists. split; [reflexivity|]. split; [reflexivity|].
  cbn [map receive_handshake]. rewrite !byte_of_Z by (unfold MAGIC; lia).
  cbn [Z.eqb MAGIC Pos.eqb negb andb].
  rewrite land_15, shiftr_div by lia. change (2 ^ 4) with 16.
  rewrite Z.shiftl_1_l. f_equal. f_equal; [lia|]. f_equal. lia.
Qed.

Lemma handshake_exact p k : 0 <= p < 16 -> 9 <= k <= 24 ->
  exists b, send_handshake (mkHandshake p (2 ^ k)) = Ok b /\ receive_handshake b = Ok (mkHandshake p (2 ^ k)).
Proof.
  intros Hp Hk. destruct (handshake_ok p (2 ^ k)) as (b & H1 & _ & H3).
  - split; [change 512 with (2 ^ 9); apply Z.pow_le_mono_r; lia|apply Z.pow_lt_mono_r; lia].
  - rewrite Z.mod_small, Z.log2_pow2 in H3 by lia. eauto.
Qed.

Lemma handshake_bad p n : n < 512 \/ 2 ^ 25 <= n -> exists s, send_handshake (mkHandshake p n) = Raise (ValueError s).
Proof.
  intros H. unfold send_handshake. cbn [hs_max_msg_size hs_protocol].
  destruct (n <=? 0) eqn:E; [eexists; reflexivity|]. apply Z.leb_gt in E.
  apply (py_bytes_bad _ [MAGIC] [0; 0]); [repeat constructor; unfold MAGIC; lia|].
  intros Hr. destruct H as [H|H].
  - assert (HL : Z.log2 n < 9) by (apply Z.log2_lt_pow2; lia).
    apply proj1 in Hr. apply Z.lor_nonneg in Hr. destruct Hr as [Hr _].
    apply Z.shiftl_nonneg in Hr. lia.
  - assert (HL : 25 <= Z.log2 n) by (apply Z.log2_le_pow2; lia).
    apply proj2 in Hr. rewrite land_15, Z.lor_comm, lor_shiftl_add in Hr by lia.
    change (2 ^ 4) with 16 in Hr. lia.
Qed.

Lemma log2_power_below n : 0 < n -> 2 ^ Z.log2 n <= n < 2 * 2 ^ Z.log2 n.
Proof. intros H. pose proof (Z.log2_spec n H) as [H1 H2]. rewrite Z.pow_succ_r in H2 by apply Z.log2_nonneg. lia. Qed.

Lemma handshake_accepts b : (exists h, receive_handshake b = Ok h) <->
  exists d1 d2 d3, b = [octet 127; d1; d2; d3] /\ (byte_Z d2 = 0 \/ byte_Z d3 = 0).
Proof.
  split.
  - intros [h H]. unfold receive_handshake in H. destruct b as [|d0 [|d1 [|d2 [|d3 [|]]]]]; try discriminate.
    destruct (byte_Z d0 =? MAGIC) eqn:E0; [|discriminate]. cbn [negb] in H. apply Z.eqb_eq in E0.
    exists d1, d2, d3. split.
    + f_equal. apply byte_Z_inj. rewrite E0, octet_Z by lia. reflexivity.
    + destruct (byte_Z d2 =? 0) eqn:E2; [apply Z.eqb_eq in E2; auto|].
      destruct (byte_Z d3 =? 0) eqn:E3; [apply Z.eqb_eq in E3; auto|]. discriminate.
  - intros (d1 & d2 & d3 & -> & H). unfold receive_handshake. rewrite octet_Z by lia.
    change (127 =? MAGIC) with true. cbn [negb].
    destruct H as [H|H]; rewrite H; cbn [Z.eqb negb andb]; rewrite ?andb_false_r; eexists; reflexivity.
Qed.

Lemma handshake_raises b e : receive_handshake b = Raise e -> exists s, e = ValueError s.
Proof.
  unfold receive_handshake. destruct b as [|d0 [|d1 [|d2 [|d3 [|]]]]]; try (intros H; injection H as <-; eauto; fail).
  destruct (negb _); [intros H; injection H as <-; eauto|].
  destruct (_ && _); [intros H; injection H as <-; eauto|discriminate].
Qed.
