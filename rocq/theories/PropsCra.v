(** * PropsCra: signatures as texts; WAMP-CRA with HMAC-SHA256 and PBKDF2 as the standards define them (C38, C39, C117). *)
From Coq Require Import String Ascii List ZArith Bool.
From Verif Require Import PyBase Messages Encoding Auth Sha2 Ed25519 ToyCrypto SpecCodec SpecCrypto SpecBase64 SpecSha2 SpecCra Base64Facts CraFacts.
Import ListNotations.
Local Open Scope Z_scope.
Local Open Scope list_scope.

(** ** C38 *)
Theorem C38_signature_text : forall cr challenge key,
  chars (sign_wampcra_challenge cr challenge key) = base64 (hmac_sha256 cr key (chars challenge)).
Proof. exact cra_sign_text. Qed.
Print Assumptions C38_signature_text.
Theorem C38_verify_text : forall cr signature challenge key,
  verify_wampcra_signature cr signature challenge key = Ok true <->
  Forall (fun a => number a < 128) (chars signature) /\ decodes (chars signature) (hmac_sha256 cr key (chars challenge)).
Proof. exact cra_verify_text. Qed.
Print Assumptions C38_verify_text.
(** Both ways of ending: with padding (everything after it is ignored), and without. *)
Example C38_text_ex :
  decodes (chars "a2V5Y2hhbA==") (chars "keychal") /\ decodes (chars "a2V5*Y2hh=bA==a2V5") (chars "keychal") /\
  decodes (chars "a2V5Y2hh") (chars "keycha") /\ base64 (chars "keychal") = chars "a2V5Y2hhbA==" /\ base64 (chars "keycha") = chars "a2V5Y2hh".
Proof. repeat split; try reflexivity; apply (proj1 (b64decode_iff _ _)); vm_compute; reflexivity. Qed.

(** ** C39 *)
Theorem C39_generated_text : forall random, chars (generate_cryptosign_challenge random) = hex_text random.
Proof. exact cs_generated_text. Qed.
Print Assumptions C39_generated_text.
Theorem C39_signature_text : forall cr challenge seed s,
  sign_cryptosign_challenge cr (VStr challenge) seed = Ok s <->
  exists raw, map lower (chars challenge) = hex_text raw /\ chars s = hex_text (ed_sign cr seed raw) ++ chars challenge.
Proof. exact cs_sign_text. Qed.
Print Assumptions C39_signature_text.
Theorem C39_verify_text : forall cr sig public_key,
  verify_cryptosign_signature cr sig public_key = Ok true <->
  length public_key = 32%nat /\
  exists signature message, map lower (chars sig) = hex_text (signature ++ message) /\ length signature = 64%nat /\ ed_verify cr public_key message signature = true.
Proof. exact cs_verify_text. Qed.
Print Assumptions C39_verify_text.
Example C39_text_ex : map lower (chars "0aFF") = hex_text [octet 10; octet 255] /\
  (exists s, sign_cryptosign_challenge toy (VStr "0aFF") (repeat (octet 7) 32) = Ok s) /\
  (forall s, sign_cryptosign_challenge toy (VStr "0aF") (repeat (octet 7) 32) <> Ok s) /\ ~ (exists raw, map lower (chars "0aFg") = hex_text raw).
Proof.
  split; [reflexivity|]. split; [eexists; vm_compute; reflexivity|]. split; [discriminate|].
  intros [raw H]. apply unhexlify_iff in H. discriminate.
Qed.

(** ** C117 *)
Theorem C117_derived_key : forall salt secret iterations keylen key,
  derive_cra_key real_crypto salt secret iterations keylen = Ok key <-> derived salt secret iterations keylen key.
Proof. exact derived_iff. Qed.
Print Assumptions C117_derived_key.
Theorem C117_client_answer : forall secret ch a,
  wampcra_authenticate real_crypto secret ch = Ok a <-> au_extra a = [] /\ cra_answer (ch_extra ch) secret (au_signature a).
Proof. exact answer_iff. Qed.
Print Assumptions C117_client_answer.
Theorem C117_router_accepts : forall signature challenge key,
  verify_wampcra_signature real_crypto signature challenge key = Ok true <->
  Forall (fun a => number a < 128) (chars signature) /\ exists mac, decodes (chars signature) mac /\ is_hmac key (chars challenge) mac.
Proof. exact verify_iff. Qed.
Print Assumptions C117_router_accepts.
Example C117_ex :
  (exists a, wampcra_authenticate real_crypto "s3cret" (mkChallenge "wampcra" [(VStr "challenge", VStr "x")]) = Ok a) /\
  (exists a, wampcra_authenticate real_crypto "s3cret" (mkChallenge "wampcra" [(VStr "challenge", VStr "x"); (VStr "salt", VStr "salt"); (VStr "iterations", VInt 2); (VStr "keylen", VNone)]) = Ok a) /\
  (forall a, wampcra_authenticate real_crypto "s3cret" (mkChallenge "wampcra" [(VStr "challenge", VStr "x"); (VStr "salt", VStr "salt"); (VStr "iterations", VInt 2)]) <> Ok a) /\
  (exists signature, cra_answer [(VStr "challenge", VStr "x")] "s3cret" signature).
Proof.
  split; [eexists; reflexivity|]. split; [eexists; reflexivity|]. split; [discriminate|].
  destruct (proj1 (answer_iff "s3cret" (mkChallenge "wampcra" [(VStr "challenge", VStr "x")]) _) eq_refl) as [_ H]. eexists. exact H.
Qed.
