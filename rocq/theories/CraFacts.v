(** * CraFacts: signatures as texts (C38, C39, C117).  Proofs only. *)
From Coq Require Import String Ascii List ZArith NArith Bool Lia.
From Verif Require Import PyBase Messages Rawsocket Encoding EncodingFacts Utf8 Auth AuthFacts Sha2 Ed25519 SpecCodec SpecCrypto CryptoFacts SpecBase64 Base64Facts SpecSha2 Sha2Facts SpecCra.
Import ListNotations.
Local Open Scope Z_scope.
Local Open Scope list_scope.

Lemma chars_decode b : chars (decode_str b) = b.
Proof. apply encode_decode_str. Qed.
Lemma chars_app a b : chars (a ++ b) = chars a ++ chars b.
Proof. induction a as [|x a IH]; [reflexivity|]. cbn. unfold chars in IH. rewrite IH. reflexivity. Qed.
Lemma chars_inj a b : chars a = chars b -> a = b.
Proof. intros H. rewrite <- (string_of_list_ascii_of_string a), <- (string_of_list_ascii_of_string b). unfold chars in H. rewrite H. reflexivity. Qed.

Lemma cra_sign_text cr c k : chars (sign_wampcra_challenge cr c k) = base64 (hmac_sha256 cr k (chars c)).
Proof. unfold sign_wampcra_challenge. rewrite chars_decode, b64encode_is. reflexivity. Qed.
Lemma cra_verify_text cr sig c k : verify_wampcra_signature cr sig c k = Ok true <->
  Forall (fun a => number a < 128) (chars sig) /\ decodes (chars sig) (hmac_sha256 cr k (chars c)).
Proof. rewrite cra_verify_iff. apply b64decode_iff. Qed.

Lemma cs_generated_text random : chars (generate_cryptosign_challenge random) = hex_text random.
Proof. unfold generate_cryptosign_challenge. rewrite chars_decode. apply hexlify_text. Qed.
Lemma cs_sign_text cr c seed s : sign_cryptosign_challenge cr (VStr c) seed = Ok s <->
  exists raw, map lower (chars c) = hex_text raw /\ chars s = hex_text (ed_sign cr seed raw) ++ chars c.
Proof.
  unfold sign_cryptosign_challenge. cbn [unhexlify]. split.
  - destruct (unhexlify_str c) as [raw|] eqn:E; [|discriminate]. cbn [bind]. intros H. injection H as <-. exists raw. split; [apply unhexlify_iff, E|]. rewrite chars_app, chars_decode, hexlify_text. reflexivity.
  - intros (raw & E & H). apply unhexlify_iff in E. rewrite E. cbn [bind]. f_equal. apply chars_inj. rewrite chars_app, chars_decode, hexlify_text, H. reflexivity.
Qed.
Lemma cs_verify_text cr sig pub : verify_cryptosign_signature cr sig pub = Ok true <->
  length pub = 32%nat /\ exists signature message, map lower (chars sig) = hex_text (signature ++ message) /\ length signature = 64%nat /\ ed_verify cr pub message signature = true.
Proof.
  rewrite cs_verify_iff. split; intros (L & s & m & H & R); (split; [exact L|]); exists s, m; (split; [apply unhexlify_iff, H|exact R]).
Qed.

(** Bits determine octets. *)
Lemma octet_bits_inj a b : octet_bits a = octet_bits b -> a = b.
Proof.
  intros H. apply (f_equal value) in H. unfold octet_bits in H. rewrite !value_bits in H. change (number a) with (byte_Z a) in H. change (number b) with (byte_Z b) in H.
  rewrite !Z.mod_small in H by (apply byte_bound). rewrite <- (byte_of_Z' a), <- (byte_of_Z' b), H. reflexivity.
Qed.
Lemma app_split {A} (a b c d : list A) : length a = length b -> a ++ c = b ++ d -> a = b /\ c = d.
Proof. revert b. induction a as [|x a IH]; intros [|y b] L H; cbn [length app] in *; try discriminate; [auto|]. injection H as -> H. destruct (IH b ltac:(lia) H) as [-> ->]. auto. Qed.
Lemma all_bits_inj a : forall b, all_bits a = all_bits b -> a = b.
Proof.
  induction a as [|x a IH]; intros b H.
  - destruct b; [reflexivity|]. apply (f_equal (@length bool)) in H. rewrite !all_bits_length in H. discriminate.
  - destruct b as [|y b]; [apply (f_equal (@length bool)) in H; rewrite !all_bits_length in H; discriminate|].
    change (octet_bits x ++ all_bits a = octet_bits y ++ all_bits b) in H. apply app_split in H; [|unfold octet_bits; rewrite !bits_length; reflexivity].
    destruct H as [E F]. apply octet_bits_inj in E. apply IH in F. subst. reflexivity.
Qed.

Lemma is_hmac_iff k t mac : is_hmac k t mac <-> mac = hmac k t.
Proof. unfold is_hmac. rewrite <- hmac_is. split; [apply all_bits_inj|intros ->; reflexivity]. Qed.
Lemma is_pbkdf2_iff p s i n dk : 1 <= i -> 0 <= n -> is_pbkdf2 p s i n dk <-> dk = pbkdf2_bytes p s i n.
Proof.
  intros I N. unfold is_pbkdf2. rewrite <- pbkdf2_is by exact I. rewrite Z2Nat.id by exact N. split; [apply all_bits_inj|intros ->; reflexivity].
Qed.
Theorem derived_iff salt secret it kl key : derive_cra_key real_crypto salt secret it kl = Ok key <-> derived salt secret it kl key.
Proof.
  rewrite derive_ok. unfold derived. split.
  - intros (s & i & n & A & U & C & K & ->). exists s, i, n, (pbkdf2_bytes (chars secret) (chars s) i n). pose proof (key_size_pos _ _ K). destruct C as [C1 C2].
    rewrite is_pbkdf2_iff by lia. rewrite b64encode_is. repeat split; auto; lia.
  - intros (s & i & n & dk & A & U & C & K & P & ->). exists s, i, n. pose proof (key_size_pos _ _ K). pose proof C as [C1 C2]. rewrite is_pbkdf2_iff in P by lia. subst dk. rewrite b64encode_is. auto 6.
Qed.
Theorem verify_iff sig c key : verify_wampcra_signature real_crypto sig c key = Ok true <->
  Forall (fun a => number a < 128) (chars sig) /\ exists mac, decodes (chars sig) mac /\ is_hmac key (chars c) mac.
Proof.
  rewrite cra_verify_text. cbn [hmac_sha256 real_crypto]. split; intros [A B]; (split; [exact A|]).
  - eexists. split; [exact B|]. apply is_hmac_iff. reflexivity.
  - destruct B as (mac & B & H). apply is_hmac_iff in H. subst mac. exact B.
Qed.
Theorem answer_iff secret ch a : wampcra_authenticate real_crypto secret ch = Ok a <-> au_extra a = [] /\ cra_answer (ch_extra ch) secret (au_signature a).
Proof.
  assert (KEY : forall key, match sget_default "salt" VNone (ch_extra ch) with VNone => Ok (encode_str secret) | _ => derive_cra_key real_crypto (sget_default "salt" VNone (ch_extra ch)) secret (sget_default "iterations" (VInt 0) (ch_extra ch)) (sget_default "keylen" (VInt 0) (ch_extra ch)) end = Ok key <-> cra_key (ch_extra ch) secret key).
  { intros key. unfold sget_default, cra_key.
    assert (D : forall salt, derive_cra_key real_crypto salt secret (match sget "iterations" (ch_extra ch) with Some v => v | None => VInt 0 end) (match sget "keylen" (ch_extra ch) with Some v => v | None => VInt 0 end) = Ok key <->
       exists it kl, sget "iterations" (ch_extra ch) = Some it /\ sget "keylen" (ch_extra ch) = Some kl /\ derived salt secret it kl key).
    { intros salt. rewrite derived_iff. split.
      - intros H. pose proof H as (s & i & n & dk & _ & _ & C & K & _). destruct (sget "iterations" (ch_extra ch)) as [it|]; [|destruct C as [C1 C2]; cbn in C1; injection C1 as <-; lia].
        destruct (sget "keylen" (ch_extra ch)) as [kl|]; [|destruct K as [[K _]|[K1 K2]]; [discriminate|cbn in K1; injection K1 as <-; lia]]. exists it, kl. auto.
      - intros (it & kl & -> & -> & H). exact H. }
    destruct (sget "salt" (ch_extra ch)) as [v|]; [|split; [intros E; injection E as <-; reflexivity|intros ->; reflexivity]].
    destruct v; try apply D. split; [intros E; injection E as <-; reflexivity|intros ->; reflexivity]. }
  unfold wampcra_authenticate, cra_answer. split.
  - intros H. match type of H with bind ?x _ = _ => destruct x as [key|] eqn:K; [|discriminate H] end. cbn [bind] in H. clear K. pose proof (proj1 (KEY key) eq_refl) as K.
    destruct (sget "challenge" (ch_extra ch)) as [[]|] eqn:C; try discriminate H. unfold strict_encode in H. destruct (utf8_valid (encode_str s)) eqn:U; [|discriminate H]. cbn [bind] in H. injection H as <-.
    cbn [au_extra au_signature]. split; [reflexivity|]. exists s, key, (hmac key (chars s)). repeat split; auto.
    + apply is_hmac_iff. reflexivity.
    + rewrite cra_sign_text. reflexivity.
  - destruct a as [sig ex]. cbn [au_extra au_signature]. intros (-> & c & key & mac & C & U & K & M & S). apply KEY in K. cbv zeta. rewrite K. cbn [bind]. rewrite C. unfold strict_encode. unfold unicode in U. rewrite U. cbn [bind].
    do 2 f_equal. apply chars_inj. rewrite cra_sign_text, S. apply is_hmac_iff in M. subst mac. reflexivity.
Qed.
