(** * PropsEd25519: Cryptosign with Ed25519 as RFC 8032 defines it (C118-C120). *)
From Coq Require Import String Ascii List ZArith Bool.
From Verif Require Import PyBase Messages Encoding EncodingFacts Auth AuthFacts Acceptor Joiner Handshake HandshakeFacts CodecBase SpecCodec Json Codecs CodecsFacts SpecE2E HandshakeCodec.
From Verif Require Import Sha2 Ed25519 SpecBase64 SpecEd25519 Base64Facts CryptoFacts SignatureFacts Rfc8032Facts CryptosignFacts.
Import ListNotations.
Local Open Scope Z_scope.
Local Open Scope list_scope.
Local Notation hex_text := SpecBase64.hex_text.

(** ** C118 *)
Theorem C118_announced_key : forall authid priv extra cl after,
  cryptosign_client real_crypto authid priv extra = Ok (cl, after) -> sget "pubkey" (extra_or_empty extra) = None ->
  exists seed pk t, map lower (chars priv) = hex_text seed /\ length seed = 32%nat /\ public_key seed pk /\
    sget "pubkey" (cl_extra cl) = Some (VStr t) /\ chars t = hex_text pk.
Proof. exact announced_key. Qed.
Print Assumptions C118_announced_key.
Theorem C118_signature : forall challenge seed s,
  sign_cryptosign_challenge real_crypto (VStr challenge) seed = Ok s <->
  exists raw sig, map lower (chars challenge) = hex_text raw /\ signature_of seed raw sig /\ chars s = hex_text sig ++ chars challenge.
Proof. exact signed_is. Qed.
Print Assumptions C118_signature.
Theorem C118_accepts : forall s pk,
  verify_cryptosign_signature real_crypto s pk = Ok true <->
  exists sig m, map lower (chars s) = hex_text (sig ++ m) /\ valid pk m sig.
Proof. exact accepted_is. Qed.
Print Assumptions C118_accepts.

Definition ex_seed : bytes := repeat (octet 7) 32.
Definition ex_random : bytes := chars "0123456789abcdef".
(** Seeds have keys, messages signatures; one nonce that is not zero; something that is no signature. *)
Example C118_ex :
  (exists pk, public_key ex_seed pk) /\ (exists sig, signature_of ex_seed ex_random sig) /\
  (exists r, nonce ex_seed ex_random r /\ r <> 0) /\ ~ valid (repeat (octet 255) 32) ex_random (repeat (octet 255) 64).
Proof.
  split; [eexists; apply public_key_is; reflexivity|]. split; [eexists; apply signature_is; reflexivity|]. split.
  - eexists. split; [apply nonce_is; reflexivity|]. vm_compute. discriminate.
  - rewrite valid_is by reflexivity. vm_compute. discriminate.
Qed.

(** ** C119 *)
Theorem C119_own_signature : forall seed challenge s raw pk,
  sign_cryptosign_challenge real_crypto (VStr challenge) seed = Ok s -> map lower (chars challenge) = hex_text raw -> public_key seed pk ->
  verify_cryptosign_signature real_crypto s pk = Ok true <-> exists r, nonce seed raw r /\ r <> 0.
Proof. exact own_is. Qed.
Print Assumptions C119_own_signature.
(** Any key, any message: accepted exactly if the nonce is not zero and the two hashes times the two secrets agree. *)
Theorem C119_any_key : forall seed m sig first second seed' pk' m',
  signature_of seed m sig -> sig = first ++ second -> length first = 32%nat -> public_key seed' pk' ->
  valid pk' m' sig <->
  (exists r, nonce seed m r /\ r <> 0) /\
  exists a prefix pk k a' prefix' k', secret seed a prefix /\ public_key seed pk /\ scalar (first ++ pk ++ m) k /\
    secret seed' a' prefix' /\ scalar (first ++ pk' ++ m') k' /\ (k' * a') mod order = (k * a) mod order.
Proof. exact cross_is. Qed.
Print Assumptions C119_any_key.
Theorem C119_login : forall c e1 e2 roles sroles sid realm authid priv seed extra cl after r kt pub, is_python_codec c ->
  cryptosign_client real_crypto authid priv extra = Ok (cl, after) -> map lower (chars priv) = hex_text seed ->
  sget "pubkey" (cl_extra cl) = Some (VStr kt) -> map lower (chars kt) = hex_text pub -> length pub = 32%nat ->
  handshake_data realm authid (cl_extra cl) roles sroles sid ->
  e_auth e1 (CryptoSignRequest realm (Some authid) (Some (cl_extra cl)) (VStr kt)) = Accept r ->
  (length (e_random e1) < 200)%nat -> short_text (resp_authid r) -> short_text (resp_authrole r) ->
  let result := handshake real_crypto c (cl_authenticate cl) e1 e2 roles (joiner_with realm cl) (acceptor_init sroles true sid) in
  exists sig, signature_of seed (e_random e1) sig /\
  (valid pub (e_random e1) sig -> agreed result (mkDetails (PyInt sid) realm (Some (resp_authid r)) (Some (resp_authrole r)))) /\
  (~ valid pub (e_random e1) sig -> refused result).
Proof. exact login_is. Qed.
Print Assumptions C119_login.
Theorem C119_own_login : forall c e1 e2 roles sroles sid realm authid priv seed extra cl after r kt, is_python_codec c ->
  cryptosign_client real_crypto authid priv extra = Ok (cl, after) -> map lower (chars priv) = hex_text seed ->
  sget "pubkey" (extra_or_empty extra) = None -> sget "pubkey" (cl_extra cl) = Some (VStr kt) ->
  handshake_data realm authid (cl_extra cl) roles sroles sid ->
  e_auth e1 (CryptoSignRequest realm (Some authid) (Some (cl_extra cl)) (VStr kt)) = Accept r ->
  (length (e_random e1) < 200)%nat -> short_text (resp_authid r) -> short_text (resp_authrole r) ->
  let result := handshake real_crypto c (cl_authenticate cl) e1 e2 roles (joiner_with realm cl) (acceptor_init sroles true sid) in
  exists n, nonce seed (e_random e1) n /\
  (n <> 0 -> agreed result (mkDetails (PyInt sid) realm (Some (resp_authid r)) (Some (resp_authrole r)))) /\ (n = 0 -> refused result).
Proof. exact own_login_is. Qed.
Print Assumptions C119_own_login.

Definition ex_priv : string := "0707070707070707070707070707070707070707070707070707070707070707".
Definition ex_env : env := mkEnv (fun _ => Accept (PlainResponse "joe" "user")) ex_random "" (fun _ => Raise (CodecError "")).
(** A login that goes through. *)
Example C119_ex : exists cl after kt,
  cryptosign_client real_crypto "joe" ex_priv None = Ok (cl, after) /\ map lower (chars ex_priv) = hex_text ex_seed /\
  sget "pubkey" (cl_extra cl) = Some (VStr kt) /\ handshake_data "realm1" "joe" (cl_extra cl) None None 7 /\
  agreed (handshake real_crypto python_json (cl_authenticate cl) ex_env ex_env None (joiner_with "realm1" cl) (acceptor_init None true 7))
    (mkDetails (PyInt 7) "realm1" (Some "joe"%string) (Some "user"%string)).
Proof.
  assert (U : unhexlify_str ex_priv = Ok ex_seed) by reflexivity.
  destruct (own_client "joe" ex_priv ex_seed U eq_refl) as (cl & after & kt & H & EX & T'). exists cl, after, kt.
  assert (P : sget "pubkey" (cl_extra cl) = Some (VStr kt)) by (rewrite EX; reflexivity).
  assert (D : handshake_data "realm1" "joe" (cl_extra cl) None None 7).
  { rewrite EX. split; [split; [reflexivity|vm_compute; reflexivity]|]. split; [split; [reflexivity|vm_compute; reflexivity]|]. split; [apply small_pubkey, T'|]. split; [exact I|]. split; [exact I|]. split; [discriminate|discriminate]. }
  split; [exact H|]. split; [apply unhexlify_iff, U|]. split; [exact P|]. split; [exact D|].
  destruct (C119_own_login python_json ex_env ex_env None None 7 "realm1" "joe" ex_priv ex_seed None cl after (PlainResponse "joe" "user") kt ltac:(left; reflexivity) H (proj1 (unhexlify_iff _ _) U) eq_refl P D eq_refl
      ltac:(vm_compute; repeat constructor) ltac:(split; [reflexivity|vm_compute; reflexivity]) ltac:(split; [reflexivity|vm_compute; reflexivity])) as (n & N & A & _). apply A.
  destruct C118_ex as (_ & _ & (r & R1 & R2) & _). apply nonce_is in N, R1. change (e_random ex_env) with ex_random in N. congruence.
Qed.

(** ** C120 *)
Theorem C120_one_second_half : forall R x y m pk s t,
  length R = 32%nat -> length x = 32%nat -> length y = 32%nat ->
  map lower (chars s) = hex_text (R ++ x ++ m) -> map lower (chars t) = hex_text (R ++ y ++ m) ->
  verify_cryptosign_signature real_crypto s pk = Ok true -> verify_cryptosign_signature real_crypto t pk = Ok true -> x = y.
Proof. exact second_half_is. Qed.
Print Assumptions C120_one_second_half.
(** A signature that is accepted. *)
Example C120_ex : exists s pk, sign_cryptosign_challenge real_crypto (VStr "00fF") ex_seed = Ok s /\ public_key ex_seed pk /\ verify_cryptosign_signature real_crypto s pk = Ok true.
Proof.
  apply (own_accepted _ [octet 0; octet 255] ex_seed (hash_scalar (skipn 32 (digest SHA512 ex_seed) ++ [octet 0; octet 255]))); [reflexivity|apply nonce_is; reflexivity|]. vm_compute. discriminate.
Qed.
