(** * Ed25519Vectors: Ed25519.v against the vectors of /repo/tests/auth/cryptosign_test.py and of RFC 8032, and the
    Cryptosign case of /repo/tests/joiner_test.py.  Tests, not proofs. *)
From Coq Require Import String Ascii List ZArith Bool.
From Verif Require Import PyBase Messages Parse Serializer Encoding Auth Joiner Acceptor Handshake CodecBase MsgPack Cbor Json Codecs.
From Verif Require Import Sha2 Ed25519 CryptoVectors.
Import ListNotations.
Local Open Scope string_scope.
Local Open Scope Z_scope.

Definition private_key_hex : string := "c7e8c1f8f16ec37f53ed153f8afb7f18469b051f1d24dbea2097a2a104b2e9db".
Definition public_key_hex : string := "c53e4f2756a52ca1ed5cd00da108b3ed7bcffe6294e78283521e5102824f52d3".
Definition cs_challenge : string := "a1d483092ec08960fedbaed2bc1d411568a59077b794210e251bd3abb1563f7c".
Definition cs_signature : string :=
  "01d4b7a515b1023196e2bbb57c5202da72088f99a17eaeed62ba97ebf93381b92a3e8430154667e194d971fb41b090a9338b92021c39271e910a8ea072fe950c".

Definition cryptosign_authenticator : True := ltac:(holds (
  match cryptosign_client real_crypto "authID" private_key_hex None with
  | Ok (cl, _) =>
      (cl_authid cl, sget "pubkey" (cl_extra cl),
       cl_authenticate cl (mkChallenge "cryptosign" [(VStr "challenge", VStr cs_challenge)])) =
      ("authID", Some (VStr public_key_hex), Ok (mkAuthenticate (cs_signature ++ cs_challenge) []))
  | Raise _ => False
  end)).
Definition cryptosign_generate : True := ltac:(holds (
  String.length (generate_cryptosign_challenge (repeat (byte_of 7) 32)) = 64%nat)).
Definition cryptosign_verify : True := ltac:(holds (
  verify_cryptosign_signature real_crypto (cs_signature ++ cs_challenge) (octets public_key_hex) = Ok true)).

(** The scalar of the signature plus the group order (malleability); a public key of
    small order. *)
Definition ed25519_malleable : True := ltac:(holds (
  let sig := octets cs_signature in
  let sig' := (firstn 32 sig ++ le_octets 32 (of_le_octets (skipn 32 sig) + L25519))%list in
  length sig' = 64%nat /\ ed25519_verify (octets public_key_hex) (octets cs_challenge) sig' = false)).
Definition ed25519_small_order : True := ltac:(holds (
  ed25519_verify (byte_of 1 :: repeat zero 31) (octets cs_challenge) (octets cs_signature) = false)).

(** RFC 8032 section 7.1, TEST 1: the public key. *)
Definition rfc8032_test1 : True := ltac:(holds (
  let seed := octets "9d61b19deffd5a60ba844af492ec2cc44449c5697b326919703bac031cae7f60" in
  hex (ed25519_public seed) = "d75a980182b10ab7d54bfed3c964073a0ee172f3daa62325af021a68f707511a")).

Definition join_cryptosign : True := ltac:(holds (
  match cryptosign_client real_crypto "anonymous" "49fe40797d16012c92004a19cdd217a2b74ac825e3855d445c455988d70c8973" (Some []) with
  | Ok (cl, _) => joins cbor true cl
  | Raise _ => false
  end = true)).
