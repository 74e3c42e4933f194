(** * AuthFacts: lemmas about signatures and client authenticators. *)
From Coq Require Import String Ascii List ZArith Bool Lia.
From Verif Require Import PyBase Messages Encoding EncodingFacts Utf8 Auth RoundTripFacts.
Import ListNotations.
Local Open Scope Z_scope.

(** ** WAMP-CRA (C38) *)
Lemma sign_decodes cr c k : b64decode_str (sign_wampcra_challenge cr c k) = Ok (hmac_sha256 cr k (encode_str c)).
Proof. apply b64_round_trip. Qed.

Lemma cra_verify_iff cr sig c k :
  verify_wampcra_signature cr sig c k = Ok true <-> b64decode_str sig = Ok (hmac_sha256 cr k (encode_str c)).
Proof.
  unfold verify_wampcra_signature. rewrite sign_decodes. cbn [bind].
  destruct (b64decode_str sig) as [b|e].
  - destruct (list_eq_dec ascii_dec b _) as [->|N]; split; intros H; try reflexivity; try discriminate.
    injection H as ->. contradiction.
  - split; [|discriminate]. destruct e; discriminate.
Qed.

Lemma cra_verify_sign cr c k : verify_wampcra_signature cr (sign_wampcra_challenge cr c k) c k = Ok true.
Proof. apply cra_verify_iff. apply sign_decodes. Qed.

(** It returns a bool for every ASCII signature string and raises ValueError otherwise. *)
Lemma cra_verify_total cr sig c k :
  (is_ascii (encode_str sig) = true -> exists b, verify_wampcra_signature cr sig c k = Ok b) /\
  (is_ascii (encode_str sig) = false -> exists m, verify_wampcra_signature cr sig c k = Raise (ValueError m)).
Proof.
  unfold verify_wampcra_signature. rewrite sign_decodes. unfold b64decode_str.
  destruct (is_ascii (encode_str sig)); split; intros H; try discriminate.
  - destruct (a2b_base64 _ _ _ _) as [b|e] eqn:E; [eexists; reflexivity|].
    apply a2b_error in E. destruct E as [m ->]. eexists. reflexivity.
  - eexists. reflexivity.
Qed.

(** ** Cryptosign (C39) *)
Definition ed25519_correct (cr : crypto) : Prop :=
  forall seed msg, length seed = 32%nat ->
    length (ed_public cr seed) = 32%nat /\ length (ed_sign cr seed msg) = 64%nat /\
    ed_verify cr (ed_public cr seed) msg (ed_sign cr seed msg) = true.

Lemma cs_verify_iff cr sig pub :
  verify_cryptosign_signature cr sig pub = Ok true <->
  length pub = 32%nat /\ exists signature msg, unhexlify_str sig = Ok (signature ++ msg) /\ length signature = 64%nat /\
    ed_verify cr pub msg signature = true.
Proof.
  unfold verify_cryptosign_signature. destruct (Nat.eqb_spec (length pub) 32) as [L|L].
  - destruct (unhexlify_str sig) as [sm|e]; cbn [bind].
    + destruct (Nat.ltb_spec (length sm) 64) as [S|S].
      * split; [discriminate|]. intros (_ & s & m & H & Hl & _). injection H as ->. rewrite app_length in S. lia.
      * split.
        -- intros H. injection H as H. split; [exact L|]. exists (firstn 64 sm), (skipn 64 sm).
           rewrite firstn_skipn, firstn_length. repeat split; try assumption. lia.
        -- intros (_ & s & m & H & Hl & V). injection H as ->. rewrite <- Hl.
           rewrite firstn_app, Nat.sub_diag, firstn_all, skipn_app, Nat.sub_diag, skipn_all.
           cbn [firstn skipn app]. rewrite app_nil_r, V. reflexivity.
    + split; [discriminate|]. intros (_ & s & m & H & _). discriminate.
  - split; [discriminate|]. intros [? _]. contradiction.
Qed.

Lemma cs_sign_verify cr seed c raw :
  ed25519_correct cr -> length seed = 32%nat -> unhexlify_str c = Ok raw ->
  exists s, sign_cryptosign_challenge cr (VStr c) seed = Ok s /\
            verify_cryptosign_signature cr s (ed_public cr seed) = Ok true.
Proof.
  intros L Hs Hc. unfold sign_cryptosign_challenge. cbn [unhexlify]. rewrite Hc. cbn [bind].
  eexists. split; [reflexivity|]. apply cs_verify_iff. destruct (L seed raw Hs) as (L1 & L2 & L3).
  split; [exact L1|]. exists (ed_sign cr seed raw), raw. split; [|split; assumption].
  apply unhexlify_str_app; [apply unhexlify_hexlify|exact Hc].
Qed.

(** Every challenge generated by the server is a hex string the client can sign. *)
Lemma cs_generated rnd : unhexlify_str (generate_cryptosign_challenge rnd) = Ok rnd.
Proof. apply unhexlify_hexlify. Qed.

(** ** WAMP-CRA client (C70) *)
Lemma cra_client_no_salt cr secret ch : sget_default "salt" VNone (ch_extra ch) = VNone ->
  wampcra_authenticate cr secret ch =
    match sget "challenge" (ch_extra ch) with
    | None => Raise KeyError
    | Some (VStr c) => if utf8_valid (encode_str c) then Ok (mkAuthenticate (sign_wampcra_challenge cr c (encode_str secret)) [])
                       else Raise (ValueError ["surrogates not allowed"%string])
    | Some _ => Raise (AttributeError "object has no attribute 'encode'")
    end.
Proof.
  intros H. unfold wampcra_authenticate. rewrite H. cbn [bind]. destruct (sget "challenge" _) as [[]|]; try reflexivity.
  unfold strict_encode. destruct (utf8_valid _); reflexivity.
Qed.

Lemma cra_client_salt cr secret ch salt : sget "salt" (ch_extra ch) = Some (VStr salt) ->
  let it := sget_default "iterations" (VInt 0) (ch_extra ch) in
  let kl := sget_default "keylen" (VInt 0) (ch_extra ch) in
  (utf8_valid (encode_str salt) = false \/ py_eq_int it 0 = true \/ py_eq_int kl 0 = true ->
     exists m, wampcra_authenticate cr secret ch = Raise (ValueError [m])) /\
  (utf8_valid (encode_str salt) = true -> py_eq_int it 0 = false -> py_eq_int kl 0 = false ->
     wampcra_authenticate cr secret ch =
       (let! dk := pbkdf2 cr (encode_str secret) (encode_str salt) it kl in
        match sget "challenge" (ch_extra ch) with
        | None => Raise KeyError
        | Some (VStr c) => if utf8_valid (encode_str c) then Ok (mkAuthenticate (sign_wampcra_challenge cr c (b64encode dk)) [])
                       else Raise (ValueError ["surrogates not allowed"%string])
        | Some _ => Raise (AttributeError "object has no attribute 'encode'")
        end)).
Proof.
  intros H. cbv zeta. unfold wampcra_authenticate, derive_cra_key.
  assert (H' : sget_default "salt" VNone (ch_extra ch) = VStr salt) by (unfold sget_default; rewrite H; reflexivity).
  rewrite H'. split.
  - unfold strict_encode. destruct (utf8_valid _); cbn [bind]; [|eexists; reflexivity]. intros Hz. destruct (py_eq_int (sget_default "iterations" _ _) 0); [eexists; reflexivity|].
    destruct (py_eq_int (sget_default "keylen" _ _) 0); [eexists; reflexivity|]. destruct Hz as [Hz|[Hz|Hz]]; discriminate.
  - intros V -> ->. unfold strict_encode. rewrite V. cbn [bind]. destruct (pbkdf2 _ _ _ _ _); [|reflexivity]. cbn [bind].
    destruct (sget "challenge" _) as [[]|]; try reflexivity. match goal with |- context [utf8_valid (encode_str ?x)] => destruct (utf8_valid (encode_str x)) end; reflexivity.
Qed.

(** ** Cryptosign client (C71) *)
Lemma sget_sset_same' k v d : sget k (sset k v d) = Some v.
Proof.
  induction d as [|[k' v'] d IH]; cbn [sset sget]; [rewrite String.eqb_refl; reflexivity|].
  destruct k'; cbn [sget]; auto. destruct (String.eqb k s) eqn:E; cbn [sget]; rewrite E; auto.
Qed.
Lemma sget_sset_other k k' v d : k' <> k -> sget k' (sset k v d) = sget k' d.
Proof.
  intros N. induction d as [|[k1 v1] d IH]; cbn [sset sget].
  - destruct (String.eqb_spec k' k); [contradiction|reflexivity].
  - destruct k1; cbn [sget]; auto. destruct (String.eqb_spec k s) as [->|]; cbn [sget].
    + destruct (String.eqb_spec k' s); [contradiction|reflexivity].
    + destruct (String.eqb k' s); auto.
Qed.
Lemma sset_absent k v d : sget k d = None -> sset k v d = d ++ [(VStr k, v)].
Proof.
  induction d as [|[k1 v1] d IH]; cbn [sset sget app]; [reflexivity|].
  destruct k1; try (intros H; rewrite IH by exact H; reflexivity).
  destruct (String.eqb k s); [discriminate|]. intros H. rewrite IH by exact H. reflexivity.
Qed.

Lemma cs_client_extra cr authid priv extra cl after :
  cryptosign_client cr authid priv extra = Ok (cl, after) ->
  exists seed, unhexlify_str priv = Ok seed /\ length seed = 32%nat /\ cl_authid cl = authid /\
    cl_method cl = "cryptosign"%string /\
    (sget "pubkey" (extra_or_empty extra) = None ->
       cl_extra cl = extra_or_empty extra ++ [(VStr "pubkey", VStr (decode_str (hexlify (ed_public cr seed))))]) /\
    (forall v, sget "pubkey" (extra_or_empty extra) = Some v -> cl_extra cl = extra_or_empty extra) /\
    after = option_map (fun _ => cl_extra cl) extra.
Proof.
  unfold cryptosign_client. destruct (unhexlify_str priv) as [seed|]; [|discriminate]. cbn [bind].
  destruct (Nat.eqb_spec (length seed) 32) as [L|]; [|discriminate]. intros H. injection H as <- <-.
  exists seed. cbn [cl_authid cl_method cl_extra]. repeat split; auto.
  - intros G. rewrite G. apply sset_absent. exact G.
  - intros v G. rewrite G. reflexivity.
Qed.

Lemma cs_client_pubkey cr authid priv extra cl after :
  cryptosign_client cr authid priv extra = Ok (cl, after) ->
  exists seed, unhexlify_str priv = Ok seed /\ length seed = 32%nat /\ sget "pubkey" (cl_extra cl) =
      Some (match sget "pubkey" (extra_or_empty extra) with
            | Some v => v
            | None => VStr (decode_str (hexlify (ed_public cr seed)))
            end) /\
    (forall k, k <> "pubkey"%string -> sget k (cl_extra cl) = sget k (extra_or_empty extra)) /\
    exists added, cl_extra cl = extra_or_empty extra ++ added.
Proof.
  intros H. destruct (cs_client_extra _ _ _ _ _ _ H) as (seed & Hu & Hl & _ & _ & H1 & H2 & _).
  exists seed. split; [exact Hu|]. split; [exact Hl|].
  destruct (sget "pubkey" (extra_or_empty extra)) as [v|] eqn:G.
  - rewrite (H2 v eq_refl). rewrite G. split; [reflexivity|]. split; [reflexivity|]. exists []. rewrite app_nil_r. reflexivity.
  - rewrite (H1 eq_refl). rewrite <- (sset_absent "pubkey" _ _ G). split; [apply sget_sset_same'|].
    split; [intros k N; apply sget_sset_other; exact N|]. rewrite (sset_absent "pubkey" _ _ G). eauto.
Qed.

(** The private key must be 64 hex digits. *)
Lemma cs_client_ok cr authid priv extra seed : unhexlify_str priv = Ok seed ->
  ((exists cl after, cryptosign_client cr authid priv extra = Ok (cl, after)) <-> length seed = 32%nat).
Proof.
  intros H. unfold cryptosign_client. rewrite H. cbn [bind]. destruct (Nat.eqb_spec (length seed) 32) as [L|L].
  - split; [intros _; exact L|]. intros _. eexists. eexists. reflexivity.
  - split; [|contradiction]. intros (cl & a & X). discriminate.
Qed.

(** C73: sharing one dict between two authenticators. *)
Lemma cs_shared_extra cr a1 a2 p1 p2 s1 s2 :
  unhexlify_str p1 = Ok s1 -> unhexlify_str p2 = Ok s2 -> length s1 = 32%nat -> length s2 = 32%nat ->
  exists cl1 d cl2 d2,
    cryptosign_client cr a1 p1 (Some []) = Ok (cl1, Some d) /\
    cryptosign_client cr a2 p2 (Some d) = Ok (cl2, d2) /\
    d <> [] /\ sget "pubkey" (cl_extra cl2) = Some (VStr (decode_str (hexlify (ed_public cr s1)))).
Proof.
  intros H1 H2 L1 L2. unfold cryptosign_client. rewrite H1, H2. cbn [bind]. rewrite L1, L2. cbn [Nat.eqb extra_or_empty sget sset option_map].
  eexists. eexists. eexists. eexists. split; [reflexivity|]. split; [reflexivity|]. split; [discriminate|reflexivity].
Qed.

Lemma cs_caller_dict_partial cr authid priv d cl after v :
  sget "pubkey" d = Some v -> cryptosign_client cr authid priv (Some d) = Ok (cl, after) -> after = Some d.
Proof.
  intros G H. destruct (cs_client_extra _ _ _ _ _ _ H) as (seed & _ & _ & _ & _ & _ & H2 & Ha).
  rewrite Ha. cbn [option_map extra_or_empty] in *. rewrite (H2 v G). reflexivity.
Qed.
