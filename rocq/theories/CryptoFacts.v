(** * CryptoFacts: lengths of digests, and which parameters key derivation accepts (C104).  Proofs only. *)
From Coq Require Import String Ascii List ZArith NArith Bool Lia.
From Verif Require Import PyBase Messages Parse Serializer Encoding EncodingFacts Auth AuthFacts Sha2 Ed25519 SpecCrypto.
From Verif Require Import Joiner Acceptor Handshake HandshakeFacts Utf8 CodecBase SpecCodec MsgPack Cbor Json Codecs CodecsFacts SpecE2E HandshakeCodec.
Import ListNotations.
Local Open Scope Z_scope.

Lemma to_octets_length n x : length (to_octets n x) = n.
Proof. revert x. induction n as [|n IH]; intros x; cbn [to_octets]; [reflexivity|]. rewrite app_length, IH. cbn. lia. Qed.
Lemma digest_length h m : length (digest h m) = (8 * sh_octets h)%nat.
Proof.
  unfold digest. destruct (fold_left _ _ _) as [[[[[[[a b] c] d] e] f] g] x].
  cbn [flat_map]. rewrite !app_length, !to_octets_length. cbn [length]. lia.
Qed.
Lemma hmac_length k m : length (hmac k m) = 32%nat.
Proof. unfold hmac. rewrite digest_length. reflexivity. Qed.
Lemma xor_octets_length a b : length (xor_octets a b) = Nat.min (length a) (length b).
Proof. unfold xor_octets. rewrite map_length, combine_length. reflexivity. Qed.
Lemma block_length p s it i : length (pbkdf2_block p s it i) = 32%nat.
Proof.
  unfold pbkdf2_block. set (u1 := hmac _ _).
  assert (H : forall n : N, let r := N.iter n (fun '(u, t) => let u' := hmac p u in (u', xor_octets t u')) (u1, u1) in
     length (fst r) = 32%nat /\ length (snd r) = 32%nat).
  { intros n. cbv zeta. induction n as [|n IH] using N.peano_ind; [split; apply hmac_length|].
    rewrite N.iter_succ. destruct (N.iter n _ _) as [u t]. cbn [fst snd] in *. destruct IH as [A B].
    rewrite xor_octets_length, !hmac_length, B. split; reflexivity. }
  apply H.
Qed.
Lemma flat_map_length_const {A B} (f : A -> list B) n l : (forall x, length (f x) = n) -> length (flat_map f l) = (length l * n)%nat.
Proof. intros H. induction l as [|x l IH]; cbn [flat_map length]; [reflexivity|]. rewrite app_length, H, IH. reflexivity. Qed.
Lemma pbkdf2_bytes_length p s it dk : 0 <= dk -> Z.of_nat (length (pbkdf2_bytes p s it dk)) = dk.
Proof.
  intros H. unfold pbkdf2_bytes. rewrite firstn_length, (flat_map_length_const _ 32) by apply block_length.
  rewrite seq_length. rewrite Nat.min_l; [lia|].
  pose proof (Z.div_mod (dk + 31) 32 ltac:(lia)). pose proof (Z.mod_pos_bound (dk + 31) 32 ltac:(lia)).
  set (q := (dk + 31) / 32) in *. clearbody q. lia.
Qed.
Lemma b64encode_length b : length (b64encode b) = (4 * ((length b + 2) / 3))%nat.
Proof.
  remember (length b) as n eqn:E. revert b E. induction n as [n IH] using lt_wf_ind. intros b ->.
  destruct b as [|x [|y [|z b]]]; cbn [b64encode length]; try reflexivity.
  rewrite (IH (length b)) with (b := b); [|cbn; lia|reflexivity].
  replace (S (S (S (length b))) + 2)%nat with (length b + 2 + 1 * 3)%nat by lia.
  rewrite Nat.div_add by lia. lia.
Qed.

Lemma as_long_ok v z : as_long v = Ok z <-> exists i, as_int v = Some i /\ pyint_Z i = z /\ - 2 ^ 63 <= z < 2 ^ 63.
Proof.
  unfold as_long. destruct (as_int v) as [i|].
  - destruct ((- 2 ^ 63 <=? pyint_Z i) && (pyint_Z i <? 2 ^ 63)) eqn:E.
    + apply andb_true_iff in E as [A B]. apply Z.leb_le in A. apply Z.ltb_lt in B. split.
      * injection 1 as <-. exists i. auto.
      * intros (i' & J & K & _). congruence.
    + split; [discriminate|]. intros (i' & J & K & L). injection J as <-. subst z. apply andb_false_iff in E as [E|E].
      * apply Z.leb_gt in E. lia.
      * apply Z.ltb_ge in E. lia.
  - split; [discriminate|]. intros (i' & J & _). discriminate.
Qed.
Lemma as_long_raise v e : as_long v = Raise e ->
  (as_int v = None /\ exists m, e = TypeError m) \/
  (exists i, as_int v = Some i /\ ~ (1 <= pyint_Z i <= INT_MAX) /\ exists m, e = OverflowError m).
Proof.
  unfold as_long. destruct (as_int v) as [i|].
  - destruct (_ && _) eqn:E; [discriminate|]. injection 1 as <-. right. exists i. split; [reflexivity|]. split; [|eauto].
    unfold INT_MAX. apply andb_false_iff in E as [E|E]; [apply Z.leb_gt in E|apply Z.ltb_ge in E]; lia.
  - injection 1 as <-. left. eauto.
Qed.

Lemma int_of_as_int v : int_of v = option_map pyint_Z (as_int v).
Proof. destruct v; try reflexivity; match goal with b : bool |- _ => destruct b; reflexivity end. Qed.
Lemma count_nonzero v n : count v n -> py_eq_int v 0 = false.
Proof.
  intros [H L]. destruct v as [|[]|z| | | | | |]; try discriminate H; cbn in *; injection H as H; subst; [reflexivity|lia|apply Z.eqb_neq; lia].
Qed.
Lemma count_as_long v n : count v n <-> as_long v = Ok n /\ 1 <= n <= INT_MAX.
Proof.
  unfold count, INT_MAX. rewrite as_long_ok, int_of_as_int. split.
  - intros [H L]. destruct (as_int v) as [i|]; [|discriminate]. injection H as H. split; [exists i; repeat split; [assumption|lia|lia]|lia].
  - intros [(i & A & B & _) L]. rewrite A. cbn. rewrite B. auto.
Qed.
Lemma pbkdf2_ok p s it kl dk : hashlib_pbkdf2 p s it kl = Ok dk <->
  exists i n, count it i /\ key_size kl n /\ dk = pbkdf2_bytes p s i n.
Proof.
  unfold hashlib_pbkdf2. split.
  - intros H. destruct (as_long it) as [i|] eqn:Ei; [|discriminate H]. cbn [bind] in H.
    destruct (i <? 1) eqn:E1; [discriminate H|]. destruct (INT_MAX <? i) eqn:E2; [discriminate H|].
    apply Z.ltb_ge in E1, E2. exists i.
    assert (C : count it i) by (apply count_as_long; auto).
    destruct kl; try (cbn [bind] in H; injection H as <-; exists 32; split; [exact C|split; [left; auto|reflexivity]]);
      match type of H with context [as_long ?v] => destruct (as_long v) as [n|] eqn:En; [|discriminate H] end; cbn [bind] in H;
      (destruct (n <? 1) eqn:E3; [discriminate H|]); (destruct (INT_MAX <? n) eqn:E4; [discriminate H|]); apply Z.ltb_ge in E3, E4;
      injection H as <-; exists n; (split; [exact C|split; [right; apply count_as_long; auto|reflexivity]]).
  - intros (i & n & C & K & ->). apply count_as_long in C as [Ei Li]. rewrite Ei. cbn [bind].
    destruct (i <? 1) eqn:E1; [apply Z.ltb_lt in E1; lia|]. destruct (INT_MAX <? i) eqn:E2; [apply Z.ltb_lt in E2; lia|].
    destruct K as [[-> ->]|K]; [reflexivity|]. pose proof K as [K0 _]. apply count_as_long in K as [En Ln].
    destruct kl; try discriminate K0; rewrite En; cbn [bind];
      (destruct (n <? 1) eqn:E3; [apply Z.ltb_lt in E3; lia|]); (destruct (INT_MAX <? n) eqn:E4; [apply Z.ltb_lt in E4; lia|]); reflexivity.
Qed.
Lemma derive_ok salt secret it kl k : derive_cra_key real_crypto salt secret it kl = Ok k <->
  exists s i n, salt = VStr s /\ unicode s /\ count it i /\ key_size kl n /\
    k = b64encode (pbkdf2_bytes (encode_str secret) (encode_str s) i n).
Proof.
  unfold derive_cra_key. split.
  - intros H. destruct salt; try discriminate H. unfold strict_encode in H. destruct (utf8_valid (encode_str s)) eqn:U; [|discriminate H]. cbn [bind] in H. destruct (py_eq_int it 0); [discriminate H|]. destruct (py_eq_int kl 0); [discriminate H|].
    cbn [pbkdf2 real_crypto] in H. destruct (hashlib_pbkdf2 _ _ it kl) as [dk|] eqn:E; [|discriminate H]. cbn [bind] in H. injection H as <-.
    apply pbkdf2_ok in E as (i & n & C & K & ->). exists s, i, n. auto.
  - intros (s & i & n & -> & U & C & K & ->). unfold strict_encode. rewrite U. cbn [bind]. rewrite (count_nonzero _ _ C).
    assert (Z0 : py_eq_int kl 0 = false) by (destruct K as [[-> _]|K]; [reflexivity|eapply count_nonzero; eassumption]).
    rewrite Z0. cbn [pbkdf2 real_crypto].
    destruct (pbkdf2_ok (encode_str secret) (encode_str s) it kl (pbkdf2_bytes (encode_str secret) (encode_str s) i n)) as [_ Q].
    rewrite Q by (exists i, n; auto). reflexivity.
Qed.
Lemma key_size_pos kl n : key_size kl n -> 1 <= n.
Proof. intros [[_ ->]|[_ L]]; lia. Qed.
Lemma derive_length salt secret it kl k : derive_cra_key real_crypto salt secret it kl = Ok k ->
  exists n dk, key_size kl n /\ b64decode_str (decode_str k) = Ok dk /\ Z.of_nat (length dk) = n.
Proof.
  intros H. apply derive_ok in H as (s & i & n & _ & _ & _ & K & ->). exists n. eexists. split; [exact K|]. split; [apply b64_round_trip|].
  apply pbkdf2_bytes_length. apply key_size_pos in K. lia.
Qed.

Lemma number_none v : int_of v = None <-> as_int v = None.
Proof. rewrite int_of_as_int. destruct (as_int v); split; (discriminate || reflexivity). Qed.
Lemma zero_not_count v : py_eq_int v 0 = true -> forall n, ~ count v n.
Proof. intros H n C. apply count_nonzero in C. congruence. Qed.
Lemma derive_raises salt secret it kl e : derive_cra_key real_crypto salt secret it kl = Raise e ->
  ((forall s, salt <> VStr s) /\ exists m, e = AttributeError m) \/
  (exists s, salt = VStr s) /\
  ((exists m, e = ValueError m) /\ ((exists s, salt = VStr s /\ ~ unicode s) \/ py_eq_int it 0 = true \/ py_eq_int kl 0 = true \/ (exists z, int_of it = Some z /\ z < 1) \/ exists z, int_of kl = Some z /\ z < 1) \/
   (exists m, e = OverflowError m) /\ ((exists z, int_of it = Some z /\ ~ (1 <= z <= 2 ^ 31 - 1)) \/ exists z, int_of kl = Some z /\ ~ (1 <= z <= 2 ^ 31 - 1)) \/
   (exists m, e = TypeError m) /\ (int_of it = None \/ (int_of kl = None /\ kl <> VNone))).
Proof.
  unfold derive_cra_key. destruct salt as [| | | |s| | | |]; intros H; try (injection H as <-; left; split; [discriminate|eauto]).
  right. split; [eauto|]. unfold strict_encode in H. destruct (utf8_valid (encode_str s)) eqn:U; cbn [bind] in H.
  2: { injection H as <-. left. split; [eauto|]. left. exists s. split; [reflexivity|]. unfold unicode. congruence. }
  destruct (py_eq_int it 0) eqn:Zi; [injection H as <-; left; eauto|].
  destruct (py_eq_int kl 0) eqn:Zk; [injection H as <-; left; eauto 6|].
  cbn [pbkdf2 real_crypto] in H. destruct (hashlib_pbkdf2 _ _ it kl) as [dk|x] eqn:E; cbn [bind] in H; [discriminate H|]. injection H as <-.
  unfold hashlib_pbkdf2 in E. destruct (as_long it) as [i|x0] eqn:Ei; cbn [bind] in E.
  2: { injection E as <-. apply as_long_raise in Ei as [[A B]|(j & A & B & C)].
       - right. right. split; [exact B|left; apply number_none; exact A].
       - right. left. split; [exact C|left]. exists (pyint_Z j). rewrite int_of_as_int, A. auto. }
  apply as_long_ok in Ei as (j & A & B & _).
  destruct (i <? 1) eqn:E1; [injection E as <-; apply Z.ltb_lt in E1; left; split; [eauto|]; right; right; right; left; exists i; rewrite int_of_as_int, A; cbn; rewrite B; auto|].
  destruct (INT_MAX <? i) eqn:E2; [injection E as <-; apply Z.ltb_lt in E2; right; left; split; [eauto|]; left; exists i; rewrite int_of_as_int, A; cbn; rewrite B; split; [reflexivity|unfold INT_MAX in *; lia]|].
  assert (N : kl <> VNone /\ (let! dk0 := as_long kl in
        if dk0 <? 1 then Raise (ValueError ["key length must be greater than 0."%string])
        else if INT_MAX <? dk0 then Raise (OverflowError "key length is too great.")
        else Ok (pbkdf2_bytes (encode_str secret) (encode_str s) i dk0)) = Raise x) by (destruct kl; try (split; [discriminate|exact E]); discriminate E).
  clear E. destruct N as [NN E]. destruct (as_long kl) as [n|x0] eqn:En; cbn [bind] in E.
  2: { injection E as <-. apply as_long_raise in En as [[A' B']|(j' & A' & B' & C')].
       - right. right. split; [exact B'|right; split; [apply number_none; exact A'|exact NN]].
       - right. left. split; [exact C'|right]. exists (pyint_Z j'). rewrite int_of_as_int, A'. auto. }
  apply as_long_ok in En as (j' & A' & B' & _).
  destruct (n <? 1) eqn:E3; [injection E as <-; apply Z.ltb_lt in E3; left; split; [eauto|]; right; right; right; right; exists n; rewrite int_of_as_int, A'; cbn; rewrite B'; auto|].
  destruct (INT_MAX <? n) eqn:E4; [injection E as <-; apply Z.ltb_lt in E4; right; left; split; [eauto|]; right; exists n; rewrite int_of_as_int, A'; cbn; rewrite B'; split; [reflexivity|unfold INT_MAX in *; lia]|discriminate E].
Qed.

(** ** Signatures *)
Lemma sign_length c k : length (encode_str (sign_wampcra_challenge real_crypto c k)) = 44%nat /\
  is_ascii (encode_str (sign_wampcra_challenge real_crypto c k)) = true.
Proof.
  unfold sign_wampcra_challenge. rewrite encode_decode_str, b64encode_length, b64encode_ascii. cbn [hmac_sha256 real_crypto]. rewrite hmac_length. split; reflexivity.
Qed.
Lemma client_answer secret ch a : wampcra_authenticate real_crypto secret ch = Ok a ->
  length (encode_str (au_signature a)) = 44%nat /\ is_ascii (encode_str (au_signature a)) = true /\ au_extra a = [].
Proof.
  unfold wampcra_authenticate. intros H.
  match type of H with bind ?x _ = _ => destruct x as [k|]; [|discriminate H] end. cbn [bind] in H.
  destruct (sget "challenge" (ch_extra ch)) as [[]|]; try discriminate H. unfold strict_encode in H. destruct (utf8_valid _); [|discriminate H]. injection H as <-. cbn [au_signature au_extra].
  destruct (sign_length s k). auto.
Qed.

Lemma encode_point_length p : length (encode_point p) = 32%nat.
Proof. destruct p as [[[x y] z] t]. unfold encode_point, le_octets. rewrite rev_length, to_octets_length. reflexivity. Qed.
Lemma ed_public_length seed : length (ed25519_public seed) = 32%nat.
Proof. apply encode_point_length. Qed.
Lemma ed_sign_length seed m : length (ed25519_sign seed m) = 64%nat.
Proof. unfold ed25519_sign, le_octets. rewrite app_length, encode_point_length, rev_length, to_octets_length. reflexivity. Qed.

(** ** HMAC pads its key with zeros (C105) *)
Lemma hmac_zero k m : (length k < 64)%nat -> hmac (k ++ [zero]) m = hmac k m.
Proof.
  intros H. unfold hmac. rewrite app_length. cbn [length].
  replace (64 <? length k + 1)%nat with false by (symmetry; apply Nat.ltb_ge; lia).
  replace (64 <? length k)%nat with false by (symmetry; apply Nat.ltb_ge; lia).
  rewrite app_length. cbn [length]. replace (64 - length k)%nat with (S (64 - (length k + 1))) by lia.
  cbn [repeat]. rewrite <- app_assoc. reflexivity.
Qed.
Lemma pbkdf2_zero p s it n : (length p < 64)%nat -> pbkdf2_bytes (p ++ [zero]) s it n = pbkdf2_bytes p s it n.
Proof.
  intros H. unfold pbkdf2_bytes. f_equal. apply flat_map_ext. intros i. unfold pbkdf2_block. rewrite hmac_zero by exact H.
  generalize (hmac p (s ++ to_octets 4 (Z.of_nat i))). intros u1. f_equal. generalize (Z.to_N (it - 1)). intros m.
  induction m as [|m IH] using N.peano_ind; [reflexivity|]. rewrite !N.iter_succ, IH. cbv zeta.
  match goal with |- (let '(u, t) := ?X in _) = _ => destruct X as [x t] end.
  rewrite hmac_zero by exact H. reflexivity.
Qed.
Lemma hashlib_zero p s it kl : (length p < 64)%nat -> hashlib_pbkdf2 (p ++ [zero]) s it kl = hashlib_pbkdf2 p s it kl.
Proof.
  intros H. unfold hashlib_pbkdf2. destruct (as_long it); [|reflexivity]. cbn [bind]. destruct (_ <? 1); [reflexivity|]. destruct (INT_MAX <? _); [reflexivity|].
  destruct (match kl with VNone => Ok 32 | _ => as_long kl end) as [n|]; [|reflexivity]. cbn [bind]. destruct (n <? 1); [reflexivity|]. destruct (INT_MAX <? n); [reflexivity|].
  rewrite pbkdf2_zero by exact H. reflexivity.
Qed.
Lemma encode_nul s : encode_str (s ++ nul) = encode_str s ++ [zero].
Proof. unfold encode_str. induction s as [|a s IH]; [reflexivity|]. cbn. rewrite IH. reflexivity. Qed.
Lemma authenticate_zero secret ch : (length (encode_str secret) < 64)%nat ->
  wampcra_authenticate real_crypto (secret ++ nul) ch = wampcra_authenticate real_crypto secret ch.
Proof.
  intros H. unfold wampcra_authenticate, derive_cra_key, sign_wampcra_challenge. cbn [real_crypto pbkdf2 hmac_sha256].
  rewrite encode_nul. destruct (sget_default "salt" VNone (ch_extra ch)); try reflexivity.
  - cbn [bind]. destruct (sget "challenge" _) as [[]|]; try reflexivity. rewrite hmac_zero by exact H. reflexivity.
  - destruct (strict_encode s); [|reflexivity]. cbn [bind]. destruct (py_eq_int _ 0); [reflexivity|]. destruct (py_eq_int _ 0); [reflexivity|]. rewrite hashlib_zero by exact H. reflexivity.
Qed.
Lemma joiner_receive_ext c f g j d : (forall ch, f ch = g ch) -> joiner_receive c f j d = joiner_receive c g j d.
Proof.
  intros H. unfold joiner_receive. destruct (deserialize c d) as [m|]; [|reflexivity].
  destruct m; cbn [joiner_receive_message]; try reflexivity. rewrite H. reflexivity.
Qed.
Lemma handshake_ext cr c f g e1 e2 roles j a : (forall ch, f ch = g ch) ->
  handshake cr c f e1 e2 roles j a = handshake cr c g e1 e2 roles j a.
Proof.
  intros H. unfold handshake. destruct (send_hello c j roles) as [j1 [b1|]]; [|reflexivity].
  destruct (acceptor_receive cr c e1 a b1) as [a1 [[b2 f2]|]]; [|reflexivity].
  rewrite (joiner_receive_ext c f g) by exact H. destruct (joiner_receive c g j1 b2) as [j2 [[b3|]|]]; try reflexivity.
  destruct (acceptor_receive cr c e2 a1 b3) as [a2 [[b4 f4]|]]; [|reflexivity].
  rewrite (joiner_receive_ext c f g) by exact H. reflexivity.
Qed.
Lemma real_wampcra c e1 e2 roles sroles sid realm authid my_secret extra aid arole secret salted : is_python_codec c ->
  handshake_data realm authid (extra_or_empty extra) roles sroles sid ->
  e_auth e1 (WAMPCRARequest realm (Some authid) (Some (extra_or_empty extra))) = Accept (WAMPCRAResponse aid arole secret salted) ->
  short_text aid -> short_text arole -> utf8_valid (encode_str (e_now e1)) = true -> e_json_dumps e1 = dumps python_json ->
  exists text, generate_wampcra_challenge (dumps python_json) (e_random e1) (e_now e1) sid aid arole "dynamic" = Ok text /\
  (Z.of_nat (String.length text) < 2 ^ 32 ->
   let cl := wampcra_client real_crypto authid my_secret extra in
   let result := handshake real_crypto c (cl_authenticate cl) e1 e2 roles (joiner_with realm cl) (acceptor_init sroles true sid) in
   (my_secret = secret -> agreed result (mkDetails (PyInt sid) realm (Some aid) (Some arole))) /\
   (hmac (encode_str my_secret) (encode_str text) <> hmac (encode_str secret) (encode_str text) -> refused result)).
Proof.
  intros C D A1 A2 A3 A4 A5.
  exact (py_wampcra real_crypto c e1 e2 roles sroles sid realm authid C my_secret extra aid arole secret salted D A1 A2 A3 A4 A5 hmac_length).
Qed.
Lemma real_wampcra_nul c e1 e2 roles sroles sid realm authid extra aid arole secret salted : is_python_codec c ->
  handshake_data realm authid (extra_or_empty extra) roles sroles sid ->
  e_auth e1 (WAMPCRARequest realm (Some authid) (Some (extra_or_empty extra))) = Accept (WAMPCRAResponse aid arole secret salted) ->
  short_text aid -> short_text arole -> utf8_valid (encode_str (e_now e1)) = true -> e_json_dumps e1 = dumps python_json ->
  (length (encode_str secret) < 64)%nat ->
  exists text, generate_wampcra_challenge (dumps python_json) (e_random e1) (e_now e1) sid aid arole "dynamic" = Ok text /\
  (Z.of_nat (String.length text) < 2 ^ 32 ->
   let cl := wampcra_client real_crypto authid (secret ++ nul) extra in
   agreed (handshake real_crypto c (cl_authenticate cl) e1 e2 roles (joiner_with realm cl) (acceptor_init sroles true sid))
     (mkDetails (PyInt sid) realm (Some aid) (Some arole))).
Proof.
  intros C D A1 A2 A3 A4 A5 L.
  destruct (real_wampcra c e1 e2 roles sroles sid realm authid secret extra aid arole secret salted C D A1 A2 A3 A4 A5) as (t & T & K).
  exists t. split; [exact T|]. intros X. destruct (K X) as [K1 _]. specialize (K1 eq_refl). cbv zeta in *.
  rewrite (handshake_ext real_crypto c (cl_authenticate (wampcra_client real_crypto authid (secret ++ nul) extra))
             (cl_authenticate (wampcra_client real_crypto authid secret extra))) by (intros ch; apply authenticate_zero; exact L).
  exact K1.
Qed.

Lemma string_length_decode b : String.length (decode_str b) = length b.
Proof. unfold decode_str. induction b as [|a b IH]; [reflexivity|]. cbn. rewrite IH. reflexivity. Qed.
Lemma cryptosign_shape authid priv extra cl after : cryptosign_client real_crypto authid priv extra = Ok (cl, after) ->
  sget "pubkey" (extra_or_empty extra) = None ->
  (exists pub pk, sget "pubkey" (cl_extra cl) = Some (VStr pub) /\ String.length pub = 64%nat /\ unhexlify_str pub = Ok pk /\ length pk = 32%nat) /\
  forall ch a, cl_authenticate cl ch = Ok a ->
    exists c sig raw, sget "challenge" (ch_extra ch) = Some (VStr c) /\ au_signature a = (sig ++ c)%string /\ au_extra a = [] /\
      String.length sig = 128%nat /\ unhexlify_str sig = Ok raw /\ length raw = 64%nat.
Proof.
  intros H N. split.
  - destruct (cs_client_pubkey real_crypto authid priv extra cl after H) as (seed & _ & _ & P & _). rewrite N in P. cbn [ed_public real_crypto] in P.
    eexists _, _. split; [exact P|]. rewrite string_length_decode, hexlify_length, ed_public_length. split; [reflexivity|].
    split; [apply unhexlify_hexlify|]. apply ed_public_length.
  - unfold cryptosign_client in H. destruct (unhexlify_str priv) as [seed|]; [|discriminate H]. cbn [bind] in H.
    destruct (length seed =? 32)%nat; [|discriminate H]. injection H as <- _. cbn [cl_authenticate]. intros ch a. unfold cryptosign_authenticate, sget_default.
    destruct (sget "challenge" (ch_extra ch)) as [[]|]; try discriminate;
      unfold sign_cryptosign_challenge; (destruct (unhexlify _) as [raw|] eqn:U; [|discriminate]); cbn [bind]; try discriminate.
    injection 1 as <-. cbn [au_signature au_extra]. exists s, (decode_str (hexlify (ed25519_sign seed raw))), (ed25519_sign seed raw).
    cbn [ed_sign real_crypto]. rewrite string_length_decode, hexlify_length, ed_sign_length. repeat split. apply unhexlify_hexlify.
Qed.

Lemma real_wampcra_right c e1 e2 roles sroles sid realm authid extra aid arole secret salted : is_python_codec c ->
  handshake_data realm authid (extra_or_empty extra) roles sroles sid ->
  e_auth e1 (WAMPCRARequest realm (Some authid) (Some (extra_or_empty extra))) = Accept (WAMPCRAResponse aid arole secret salted) ->
  short_text aid -> short_text arole -> utf8_valid (encode_str (e_now e1)) = true -> e_json_dumps e1 = dumps python_json ->
  exists text, generate_wampcra_challenge (dumps python_json) (e_random e1) (e_now e1) sid aid arole "dynamic" = Ok text /\
  (Z.of_nat (String.length text) < 2 ^ 32 ->
   let cl := wampcra_client real_crypto authid secret extra in
   agreed (handshake real_crypto c (cl_authenticate cl) e1 e2 roles (joiner_with realm cl) (acceptor_init sroles true sid))
     (mkDetails (PyInt sid) realm (Some aid) (Some arole))).
Proof.
  intros C D A1 A2 A3 A4 A5.
  destruct (real_wampcra c e1 e2 roles sroles sid realm authid secret extra aid arole secret salted C D A1 A2 A3 A4 A5) as (t & T & K).
  exists t. split; [exact T|]. intros X. exact (proj1 (K X) eq_refl).
Qed.
Lemma real_wampcra_wrong c e1 e2 roles sroles sid realm authid my_secret extra aid arole secret salted : is_python_codec c ->
  handshake_data realm authid (extra_or_empty extra) roles sroles sid ->
  e_auth e1 (WAMPCRARequest realm (Some authid) (Some (extra_or_empty extra))) = Accept (WAMPCRAResponse aid arole secret salted) ->
  short_text aid -> short_text arole -> utf8_valid (encode_str (e_now e1)) = true -> e_json_dumps e1 = dumps python_json ->
  exists text, generate_wampcra_challenge (dumps python_json) (e_random e1) (e_now e1) sid aid arole "dynamic" = Ok text /\
  (Z.of_nat (String.length text) < 2 ^ 32 ->
   let cl := wampcra_client real_crypto authid my_secret extra in
   hmac (encode_str my_secret) (encode_str text) <> hmac (encode_str secret) (encode_str text) ->
   refused (handshake real_crypto c (cl_authenticate cl) e1 e2 roles (joiner_with realm cl) (acceptor_init sroles true sid))).
Proof.
  intros C D A1 A2 A3 A4 A5.
  destruct (real_wampcra c e1 e2 roles sroles sid realm authid my_secret extra aid arole secret salted C D A1 A2 A3 A4 A5) as (t & T & K).
  exists t. split; [exact T|]. intros X. exact (proj2 (K X)).
Qed.
