(** * CryptosignFacts: Cryptosign with Ed25519: keys, signatures and logins.  Proofs only. *)
From Coq Require Import String Ascii List ZArith NArith Bool Lia.
From Verif Require Import PyBase Rawsocket Messages Parse Serializer SpecSchema SerializerFacts Encoding EncodingFacts Auth AuthFacts.
From Verif Require Import SpecHistory SpecAcceptor AcceptorFacts Joiner Acceptor Handshake HandshakeFacts.
From Verif Require Import Utf8 Utf8Facts CodecBase SpecCodec CodecFacts Codecs DomainFacts CodecsFacts SpecE2E HandshakeCodec.
From Verif Require Import Sha2 Ed25519 SpecBase64 Base64Facts CraFacts CryptoFacts SpecEd25519 SignatureFacts Rfc8032Facts.
Import ListNotations.
Local Open Scope Z_scope.
Local Open Scope list_scope.

(** ** The helpers *)
Theorem announced_key authid priv extra cl after : cryptosign_client real_crypto authid priv extra = Ok (cl, after) -> sget "pubkey" (extra_or_empty extra) = None ->
  exists seed pk t, map lower (chars priv) = SpecBase64.hex_text seed /\ length seed = 32%nat /\ public_key seed pk /\ sget "pubkey" (cl_extra cl) = Some (VStr t) /\ chars t = SpecBase64.hex_text pk.
Proof.
  intros H N. destruct (cs_client_pubkey _ _ _ _ _ _ H) as (seed & U & L & P & _). rewrite N in P. exists seed, (ed25519_public seed), (decode_str (hexlify (ed25519_public seed))).
  split; [apply unhexlify_iff, U|]. split; [exact L|]. split; [apply public_key_is; reflexivity|]. split; [exact P|]. apply cs_generated_text.
Qed.
Theorem signed_is challenge seed s : sign_cryptosign_challenge real_crypto (VStr challenge) seed = Ok s <->
  exists raw sig, map lower (chars challenge) = SpecBase64.hex_text raw /\ signature_of seed raw sig /\ chars s = SpecBase64.hex_text sig ++ chars challenge.
Proof.
  rewrite cs_sign_text. split.
  - intros (raw & A & B). exists raw, (ed25519_sign seed raw). rewrite signature_is. auto.
  - intros (raw & sig & A & B & C). apply signature_is in B. subst sig. exists raw. auto.
Qed.
Lemma valid_lengths pk m sig : valid pk m sig -> length pk = 32%nat /\ length sig = 64%nat.
Proof. intros (A & R & f & s & k & S & T & -> & (_ & L & _) & (_ & LF & _) & LS & _). rewrite app_length. split; [exact L|]. rewrite LF, LS. reflexivity. Qed.
Theorem accepted_is s pk : verify_cryptosign_signature real_crypto s pk = Ok true <->
  exists sig m, map lower (chars s) = SpecBase64.hex_text (sig ++ m) /\ valid pk m sig.
Proof.
  rewrite cs_verify_text. split.
  - intros (L & sig & m & H & LS & V). exists sig, m. split; [exact H|]. apply valid_is; assumption.
  - intros (sig & m & H & V). destruct (valid_lengths _ _ _ V) as [L LS]. split; [exact L|]. exists sig, m. split; [exact H|]. split; [exact LS|]. apply valid_is; assumption.
Qed.

(** ** Whose signatures a key accepts *)
Theorem cross_is seed m sig first second seed' pk' m' : signature_of seed m sig -> sig = first ++ second -> length first = 32%nat -> public_key seed' pk' ->
  valid pk' m' sig <->
  (exists r, nonce seed m r /\ r <> 0) /\
  exists a prefix pk k a' prefix' k', secret seed a prefix /\ public_key seed pk /\ scalar (first ++ pk ++ m) k /\ secret seed' a' prefix' /\ scalar (first ++ pk' ++ m') k' /\
    (k' * a') mod order = (k * a) mod order.
Proof.
  intros S E L P. apply public_key_is in P. subst pk'. apply signature_is in S. assert (F : first = firstn 32 (ed25519_sign seed m)) by (rewrite <- S, E, <- L, firstn_app, Nat.sub_diag, firstn_all, app_nil_r; reflexivity).
  rewrite valid_is by (apply ed_public_length || (rewrite S; apply ed_sign_length)). rewrite S, verify_cross, <- F. clear E S. split; intros [A B]; (split; [|]).
  - eexists. split; [apply nonce_is; reflexivity|exact A].
  - exists (clamp (digest SHA512 seed)), (skipn 32 (digest SHA512 seed)), (ed25519_public seed), (hash_scalar (first ++ ed25519_public seed ++ m)), (clamp (digest SHA512 seed')), (skipn 32 (digest SHA512 seed')), (hash_scalar (first ++ ed25519_public seed' ++ m')).
    rewrite !secret_is, public_key_is, !scalar_is. auto 8.
  - destruct A as (r & N & R). apply nonce_is in N. subst r. exact R.
  - destruct B as (a & prefix & pk & k & a' & prefix' & k' & S & P & K & S' & K' & B). apply secret_is in S, S'. destruct S as [-> _], S' as [-> _]. apply public_key_is in P. subst pk. apply scalar_is in K, K'. subst k k'. exact B.
Qed.
Theorem own_is seed challenge s raw pk : sign_cryptosign_challenge real_crypto (VStr challenge) seed = Ok s -> map lower (chars challenge) = SpecBase64.hex_text raw -> public_key seed pk ->
  verify_cryptosign_signature real_crypto s pk = Ok true <-> exists r, nonce seed raw r /\ r <> 0.
Proof.
  intros S C P. apply public_key_is in P. subst pk. apply unhexlify_iff in C. unfold sign_cryptosign_challenge in S. cbn [unhexlify] in S. rewrite C in S. cbn [bind] in S. injection S as <-.
  assert (U : unhexlify_str (decode_str (hexlify (ed25519_sign seed raw)) ++ challenge) = Ok (ed25519_sign seed raw ++ raw)) by (apply unhexlify_str_app; [apply unhexlify_hexlify|exact C]).
  unfold verify_cryptosign_signature. rewrite ed_public_length. cbn [Nat.eqb ed_sign real_crypto]. rewrite U. cbn [bind]. rewrite app_length, ed_sign_length. cbn [Nat.ltb Nat.leb Nat.add].
  pose proof (ed_sign_length seed raw) as L. rewrite <- L. rewrite firstn_app, Nat.sub_diag, firstn_all, skipn_app, Nat.sub_diag, skipn_all. cbn [firstn skipn app]. rewrite app_nil_r. cbn [ed_verify]. rewrite verify_sign. split.
  - intros H. injection H as H. apply negb_true_iff, Z.eqb_neq in H. eexists. split; [apply nonce_is; reflexivity|exact H].
  - intros (r & N & R). apply nonce_is in N. subst r. f_equal. apply negb_true_iff, Z.eqb_neq, R.
Qed.
Theorem second_half_is R x y m pk s t : length R = 32%nat -> length x = 32%nat -> length y = 32%nat ->
  map lower (chars s) = SpecBase64.hex_text (R ++ x ++ m) -> map lower (chars t) = SpecBase64.hex_text (R ++ y ++ m) ->
  verify_cryptosign_signature real_crypto s pk = Ok true -> verify_cryptosign_signature real_crypto t pk = Ok true -> x = y.
Proof.
  intros LR LX LY S T. apply unhexlify_iff in S, T.
  assert (V : forall s z, length z = 32%nat -> unhexlify_str s = Ok (R ++ z ++ m) -> verify_cryptosign_signature real_crypto s pk = Ok true -> length pk = 32%nat /\ ed25519_verify pk m (R ++ z) = true).
  { clear - LR. intros s z LZ U H. apply cs_verify_iff in H. destruct H as (L & sig & msg & U' & LS & H). split; [exact L|]. rewrite U in U'. injection U' as U'. rewrite app_assoc in U'. apply app_split in U'; [|rewrite app_length; lia]. destruct U' as [-> ->]. exact H. }
  intros HS HT. apply (V s x LX S) in HS. apply (V t y LY T) in HT. destruct HS as [L HS], HT as [_ HT]. exact (verify_unique pk m R x y L LR LX LY HS HT).
Qed.

(** ** Logins *)
Lemma py_cryptosign_any cr c e1 e2 roles sroles sid realm authid priv seed extra cl after r kt pub b : is_python_codec c ->
  (forall m, length (ed_sign cr seed m) = 64%nat) -> ed_verify cr pub (e_random e1) (ed_sign cr seed (e_random e1)) = b -> cryptosign_client cr authid priv extra = Ok (cl, after) ->
  unhexlify_str priv = Ok seed -> sget "pubkey" (cl_extra cl) = Some (VStr kt) -> unhexlify_str kt = Ok pub -> length pub = 32%nat ->
  handshake_data realm authid (cl_extra cl) roles sroles sid ->
  e_auth e1 (CryptoSignRequest realm (Some authid) (Some (cl_extra cl)) (VStr kt)) = Accept r ->
  (length (e_random e1) < 200)%nat -> short_text (resp_authid r) -> short_text (resp_authrole r) ->
  let result := handshake cr c (cl_authenticate cl) e1 e2 roles (joiner_with realm cl) (acceptor_init sroles true sid) in
  if b then agreed result (mkDetails (PyInt sid) realm (Some (resp_authid r)) (Some (resp_authrole r))) else refused result.
Proof.
  intros C SL EB CL U PK UK LK (H1 & H2 & H3 & H4 & H5 & H6) A LR T1 T2 result.
  pose proof (cs_generated (e_random e1)) as G. set (challenge := generate_cryptosign_challenge (e_random e1)) in *.
  set (sig := (decode_str (hexlify (ed_sign cr seed (e_random e1))) ++ challenge)%string).
  assert (SG : sign_cryptosign_challenge cr (VStr challenge) seed = Ok sig).
  { unfold sign_cryptosign_challenge. cbn [unhexlify]. rewrite G. reflexivity. }
  destruct (cs_client_extra _ _ _ _ _ _ CL) as (_ & _ & _ & EA & EM & _). pose proof (cs_client_authenticate _ _ _ _ _ _ _ CL U) as AU.
  assert (X : cl_authenticate cl (mkChallenge "cryptosign" [(VStr "challenge", VStr challenge)]) = Ok (mkAuthenticate sig [])).
  { rewrite AU. unfold cryptosign_authenticate. cbn [ch_extra sget_default sget String.eqb Ascii.eqb Bool.eqb].
    unfold sget_default. cbn [sget String.eqb Ascii.eqb Bool.eqb]. rewrite SG. reflexivity. }
  assert (US : unhexlify_str sig = Ok (ed_sign cr seed (e_random e1) ++ e_random e1)) by (apply unhexlify_str_app; [apply unhexlify_hexlify|exact G]).
  assert (V : verify_cryptosign_signature cr sig pub = Ok (ed_verify cr pub (e_random e1) (ed_sign cr seed (e_random e1)))).
  { unfold verify_cryptosign_signature. rewrite LK. cbn [Nat.eqb]. rewrite US. cbn [bind]. rewrite app_length, SL. cbn [Nat.ltb Nat.leb Nat.add]. rewrite <- (SL (e_random e1)) at 1 2. rewrite firstn_app, Nat.sub_diag, firstn_all, skipn_app, Nat.sub_diag, skipn_all. cbn [firstn skipn app]. rewrite app_nil_r. reflexivity. }
  destruct (srv_cryptosign cr sroles sid e1 e2 realm authid (cl_extra cl) roles r (VStr kt) pub sig PK UK A) as (a1 & R1 & RA & RR).
  assert (C1 : carries c (Hello (hello_with realm authid "cryptosign" (cl_extra cl) roles))) by (apply carries_hello; try assumption; lit).
  assert (C2 : carries c (Challenge (mkChallenge "cryptosign" [(VStr "challenge", VStr challenge)]))) by (apply carries_challenge; [exact C|lit|]; apply small_challenge; apply HandshakeCodec.hex_text; lia).
  assert (C3 : carries c (Authenticate (mkAuthenticate sig []))).
  { apply carries_authenticate; [exact C|].
    assert (E : sig = decode_str (hexlify (ed_sign cr seed (e_random e1) ++ e_random e1))).
    { unfold sig, challenge. rewrite hexlify_app. unfold generate_cryptosign_challenge. rewrite <- (decode_encode_str (_ ++ _)%string), encode_str_app, !encode_decode_str. reflexivity. }
    rewrite E. apply HandshakeCodec.hex_text. rewrite app_length, SL. lia. }
  rewrite V, EB in RA, RR. destruct b.
  - destruct (RA eq_refl) as (a2 & R2 & D).
    assert (C4 : carries c (welcome_msg sroles sid (resp_authid r) (resp_authrole r) None)) by (apply carries_welcome; try assumption; exact I).
    destruct (handshake_welcomed cr c (cl_authenticate cl) e1 e2 roles realm "cryptosign" authid (cl_extra cl) _ a1 a2 _
                (mkAuthenticate sig []) sroles sid _ _ _ C1 R1 C2 X C3 R2 C4) as (j' & H & DJ).
    unfold result, joiner_with, agreed. rewrite EA, EM, H. auto.
  - destruct (RR eq_refl) as (a2 & R2 & _ & D).
    destruct (handshake_refused cr c (cl_authenticate cl) e1 e2 roles realm "cryptosign" authid (cl_extra cl) _ a1 a2 _
                (mkAuthenticate sig []) _ C1 R1 C2 X C3 R2 ltac:(apply carries_abort; exact C)) as (j' & H & DJ).
    unfold result, joiner_with, refused. rewrite EA, EM, H. auto.
Qed.
Lemma real_sign seed m : ed_sign real_crypto seed m = ed25519_sign seed m. Proof. reflexivity. Qed.
Lemma real_verify pub m seed : ed_verify real_crypto pub m (ed_sign real_crypto seed m) = ed25519_verify pub m (ed25519_sign seed m).
Proof. rewrite real_sign. generalize (ed25519_sign seed m). reflexivity. Qed.
(** With Ed25519: welcomed if the announced key accepts the signature, refused otherwise. *)
Theorem login_is c e1 e2 roles sroles sid realm authid priv seed extra cl after r kt pub : is_python_codec c ->
  cryptosign_client real_crypto authid priv extra = Ok (cl, after) -> map lower (chars priv) = SpecBase64.hex_text seed ->
  sget "pubkey" (cl_extra cl) = Some (VStr kt) -> map lower (chars kt) = SpecBase64.hex_text pub -> length pub = 32%nat ->
  handshake_data realm authid (cl_extra cl) roles sroles sid ->
  e_auth e1 (CryptoSignRequest realm (Some authid) (Some (cl_extra cl)) (VStr kt)) = Accept r ->
  (length (e_random e1) < 200)%nat -> short_text (resp_authid r) -> short_text (resp_authrole r) ->
  let result := handshake real_crypto c (cl_authenticate cl) e1 e2 roles (joiner_with realm cl) (acceptor_init sroles true sid) in
  exists sig, signature_of seed (e_random e1) sig /\
  (valid pub (e_random e1) sig -> agreed result (mkDetails (PyInt sid) realm (Some (resp_authid r)) (Some (resp_authrole r)))) /\
  (~ valid pub (e_random e1) sig -> refused result).
Proof.
  intros C CL U PK UK LK D A LR T1 T2 result. apply unhexlify_iff in U, UK.
  pose proof (py_cryptosign_any real_crypto c e1 e2 roles sroles sid realm authid priv seed extra cl after r kt pub _ C (ed_sign_length seed) (real_verify pub (e_random e1) seed) CL U PK UK LK D A LR T1 T2) as H. cbv zeta in H. fold result in H.
  exists (ed25519_sign seed (e_random e1)). split; [apply signature_is; reflexivity|]. rewrite valid_is by (exact LK || apply ed_sign_length).
  destruct (ed25519_verify pub (e_random e1) (ed25519_sign seed (e_random e1))); split; intros V; try exact H; try discriminate; contradiction V; reflexivity.
Qed.
(** The client that announces its own key. *)
Theorem own_login_is c e1 e2 roles sroles sid realm authid priv seed extra cl after r kt : is_python_codec c ->
  cryptosign_client real_crypto authid priv extra = Ok (cl, after) -> map lower (chars priv) = SpecBase64.hex_text seed ->
  sget "pubkey" (extra_or_empty extra) = None -> sget "pubkey" (cl_extra cl) = Some (VStr kt) ->
  handshake_data realm authid (cl_extra cl) roles sroles sid ->
  e_auth e1 (CryptoSignRequest realm (Some authid) (Some (cl_extra cl)) (VStr kt)) = Accept r ->
  (length (e_random e1) < 200)%nat -> short_text (resp_authid r) -> short_text (resp_authrole r) ->
  let result := handshake real_crypto c (cl_authenticate cl) e1 e2 roles (joiner_with realm cl) (acceptor_init sroles true sid) in
  exists n, nonce seed (e_random e1) n /\
  (n <> 0 -> agreed result (mkDetails (PyInt sid) realm (Some (resp_authid r)) (Some (resp_authrole r)))) /\ (n = 0 -> refused result).
Proof.
  intros C CL U NP PK D A LR T1 T2 result. apply unhexlify_iff in U. destruct (cs_client_pubkey _ _ _ _ _ _ CL) as (seed' & U' & L & PK' & _). rewrite U in U'. injection U' as <-. rewrite NP, PK in PK'. injection PK' as ->.
  pose proof (py_cryptosign_any real_crypto c e1 e2 roles sroles sid realm authid priv seed extra cl after r _ _ _ C (ed_sign_length seed) (verify_sign seed (e_random e1)) CL U PK (unhexlify_hexlify _) (ed_public_length seed) D A LR T1 T2) as H. cbv zeta in H. fold result in H.
  eexists. split; [apply nonce_is; reflexivity|]. set (n := hash_scalar _) in *. clearbody n. destruct (Z.eqb_spec n 0) as [E|E]; cbn [negb] in H; split; intros V; try exact H; contradiction.
Qed.
Lemma small_pubkey s : short_text s -> SpecCodec.small [(VStr "pubkey", VStr s)].
Proof.
  intros T. destruct (dict_intro [(VStr "pubkey", VStr s)] 0) as [A B]; [nodup|repeat constructor|cbn; lia| |split; [exact A|lia]].
  repeat apply Forall_cons; try apply Forall_nil; cbn [fst snd]; (split; [key|]); (split; [|bounded]); auto using text_portable.
Qed.
Lemma own_client authid priv seed : unhexlify_str priv = Ok seed -> length seed = 32%nat ->
  exists cl after kt, cryptosign_client real_crypto authid priv None = Ok (cl, after) /\ cl_extra cl = [(VStr "pubkey", VStr kt)] /\ short_text kt.
Proof.
  intros U L. destruct (proj2 (cs_client_ok real_crypto authid priv None seed U) L) as (cl & after & H). exists cl, after, (decode_str (hexlify (ed_public real_crypto seed))).
  destruct (cs_client_extra _ _ _ _ _ _ H) as (seed' & U' & _ & _ & _ & EX & _). rewrite U in U'. injection U' as <-. split; [exact H|]. split; [exact (EX eq_refl)|].
  apply HandshakeCodec.hex_text. change (length (ed25519_public seed) < 1000)%nat. rewrite ed_public_length. repeat constructor.
Qed.
Lemma own_accepted c raw seed r : map lower (chars c) = SpecBase64.hex_text raw -> nonce seed raw r -> r <> 0 ->
  exists s pk, sign_cryptosign_challenge real_crypto (VStr c) seed = Ok s /\ public_key seed pk /\ verify_cryptosign_signature real_crypto s pk = Ok true.
Proof.
  intros H N R. assert (P : public_key seed (ed25519_public seed)) by (apply public_key_is; reflexivity).
  assert (S : exists s, sign_cryptosign_challenge real_crypto (VStr c) seed = Ok s) by (unfold sign_cryptosign_challenge; cbn [unhexlify]; apply unhexlify_iff in H; rewrite H; eexists; reflexivity).
  destruct S as [s S]. exists s, (ed25519_public seed). split; [exact S|]. split; [exact P|]. apply (own_is seed c s raw _ S H P). exists r. auto.
Qed.
