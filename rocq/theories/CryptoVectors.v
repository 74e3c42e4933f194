(** * CryptoVectors: the concrete primitives of Sha2.v and Ed25519.v against published test vectors, and
    /repo/tests/auth and /repo/tests/joiner_test.py replayed with them.  Tests, not proofs. *)
From Coq Require Import String Ascii List ZArith Bool.
From Verif Require Import PyBase Messages Parse Serializer Encoding Auth Joiner Acceptor Handshake CodecBase MsgPack Cbor Json Codecs Helpers.
From Verif Require Import Sha2 Ed25519.
Import ListNotations.
Local Open Scope string_scope.
Local Open Scope Z_scope.

(** These computations are too long for the kernel's checker without the bytecode machine, so a test is not a theorem
    here: [holds P] evaluates P when this file is compiled and fails unless every equation in it is true; nothing but
    [I] is recorded. *)
Ltac all_true P :=
  lazymatch P with
  | ?A /\ ?B => all_true A; all_true B
  | ?a = ?b => first [constr_eq a b | fail 1 "test fails:" a b]
  end.
Ltac holds P := let Q := eval vm_compute in P in all_true Q; exact I.

Definition hex (b : bytes) : string := decode_str (hexlify b).
Definition octets (s : string) : bytes := match unhexlify_str s with Ok b => b | Raise _ => [] end.

(** FIPS 180-4 examples. *)
Definition sha256_abc : True := ltac:(holds (
  hex (digest SHA256 (encode_str "abc")) = "ba7816bf8f01cfea414140de5dae2223b00361a396177a9cb410ff61f20015ad")).
Definition sha256_two_blocks : True := ltac:(holds (
  hex (digest SHA256 (encode_str "abcdbcdecdefdefgefghfghighijhijkijkljklmklmnlmnomnopnopq"))
  = "248d6a61d20638b8e5c026930c3e6039a33ce45964ff2167f6ecedd419db06c1")).
Definition sha512_abc : True := ltac:(holds (
  hex (digest SHA512 (encode_str "abc"))
  = "ddaf35a193617abacc417349ae20413112e6fa4e89a97ea20a9eeee64b55d39a2192992a274fc1a836ba3c23a3feebbd454d4423643ce80e2a9ac94fa54ca49f")).
(** RFC 4231, cases 2 and 6 (key longer than a block). *)
Definition hmac_case2 : True := ltac:(holds (
  hex (hmac (encode_str "Jefe") (encode_str "what do ya want for nothing?"))
  = "5bdcc146bf60754e6a042426089575c75a003f089d2739839dec58b964ec3843")).
Definition hmac_case6 : True := ltac:(holds (
  hex (hmac (repeat (byte_of 170) 131) (encode_str "Test Using Larger Than Block-Size Key - Hash Key First"))
  = "60e431591ee0b67f0d8a26aacbf5b77f8e0bc6213728c5140546040f0ee37f54")).
(** RFC 7914 section 11, first vector. *)
Definition pbkdf2_vector : True := ltac:(holds (
  hex (pbkdf2_bytes (encode_str "passwd") (encode_str "salt") 1 64)
  = "55ac046e56e3089fec1691c22544b605f94185216dde0465e68b9d57c20dacbc49ca9cccf179b645991664b39d77ef317c71b845b1e30bd509112041d3a19783")).

(** ** tests/auth/anonymous_test.py *)
Definition anonymous_authenticator : True := ltac:(holds (
  let a := anonymous_client "authID" (Some [(VStr "extra", VStr "data")]) in
  (cl_authid a, cl_extra a, cl_method a) = ("authID", [(VStr "extra", VStr "data")], "anonymous") /\
  cl_authenticate a (mkChallenge "anonymous" [(VStr "challenge", VStr "test")]) = Raise NotImplementedError)).

(** ** tests/auth/wampcra_test.py *)
Definition cra_challenge : string :=
  "{""nonce"":""cdcb3b12d56e12825be99f38f55ba43f"",""authprovider"":""provider"",""authid"":""foo"",""authrole"":""admin"",""authmethod"":""wampcra"",""session"":123,""timestamp"":""2024-05-07T09:25:13.307Z""}".
Definition cra_key : string := "6d9b906ad60d1f4dd796dbadcc2e2252310565ccdc6fe10b289df5684faf2a46".
Definition valid_signature : string := "DIVL3bKs/Ei91eQyYznzUqEsiTmX705BNEXuicNpi8A=".
Definition wampcra_authenticator : True := ltac:(holds (
  cl_authenticate (wampcra_client real_crypto "authID" cra_key (Some []))
    (mkChallenge "wampcra" [(VStr "challenge", VStr cra_challenge)]) = Ok (mkAuthenticate valid_signature []))).
Definition wampcra_generate : True := ltac:(holds (
  match generate_wampcra_challenge (dumps python_json) (repeat (byte_of 171) 16) "2024-05-07T09:25:13.307Z" 123 "john" "admin" "provider" with
  | Ok text =>
      match loads python_json (encode_str text) with
      | Ok (VDict d) =>
          map (fun k => sget k d) ["nonce"; "authid"; "authrole"; "authprovider"; "authmethod"; "session"; "timestamp"] =
          [Some (VStr "abababababababababababababababab"); Some (VStr "john"); Some (VStr "admin"); Some (VStr "provider");
           Some (VStr "wampcra"); Some (VInt 123); Some (VStr "2024-05-07T09:25:13.307Z")]
      | _ => False
      end
  | Raise _ => False
  end)).
Definition wampcra_sign : True := ltac:(holds (
  sign_wampcra_challenge real_crypto cra_challenge (encode_str cra_key) = valid_signature)).
Definition wampcra_verify : True := ltac:(holds (
  verify_wampcra_signature real_crypto valid_signature cra_challenge (encode_str cra_key) = Ok true)).
Definition wampcra_verify_invalid : True := ltac:(holds (
  verify_wampcra_signature real_crypto "invalid_signature" cra_challenge (encode_str cra_key) = Ok false)).

(** A derived key, computed with CPython:
    [b64encode(hashlib.pbkdf2_hmac("sha256", b"s3cret", b"salt", 10, 20))]. *)
Definition wampcra_derived : True := ltac:(holds (
  derive_cra_key real_crypto (VStr "salt") "s3cret" (VInt 10) (VInt 20) = Ok (encode_str "VDerwNBXhsKYQlPQkHp7OuaJDrg="))).

(** ** tests/joiner_test.py *)
Definition router : env :=
  mkEnv (fun r => match r with
                  | AnonymousRequest _ a _ | CryptoSignRequest _ a _ _ | TicketRequest _ a _ _ =>
                      Accept (PlainResponse (match a with Some x => x | None => "" end) "anonymous")
                  | WAMPCRARequest _ a _ =>
                      Accept (WAMPCRAResponse (match a with Some x => x | None => "" end) "anonymous" "password" None)
                  end)
    (repeat (byte_of 77) 32) "2024-05-07T09:25:13.307Z" (dumps python_json).
(** Whether the test's assertions hold of the exchange: both sides end with the same session details. *)
Definition joins (c : codec) (has_auth : bool) (cl : client_auth) : bool :=
  let '(j, a, r) := handshake real_crypto c (cl_authenticate cl) router router None (joiner_with "realm1" cl)
                      (acceptor_init None has_auth 4242) in
  match r, joiner_details j, acceptor_details a with
  | Ok _, Ok (mkDetails (PyInt s) r1 (Some i) (Some o)), Ok (mkDetails (PyInt s') r2 (Some i') (Some o')) =>
      (s =? s') && String.eqb r1 r2 && String.eqb i i' && String.eqb o o' && (s =? 4242) && String.eqb r1 "realm1" &&
      String.eqb i "anonymous" && String.eqb o "anonymous"
  | _, _, _ => false
  end.
Definition join_no_auth : True := ltac:(holds (
  forallb (fun c => joins c false (anonymous_client "anonymous" (Some []))) [python_json; cbor; msgpack] = true)).
Definition join_ticket : True := ltac:(holds (
  joins python_json true (ticket_client "anonymous" "ticket" (Some [])) = true)).
Definition join_wampcra : True := ltac:(holds (
  joins msgpack true (wampcra_client real_crypto "anonymous" "password" (Some [])) = true)).

(** Logins as in C105. *)
Definition cra_refused : True := ltac:(holds (joins python_json true (wampcra_client real_crypto "anonymous" "Password" (Some [])) = false)).
Definition cra_nul : True := ltac:(holds (joins cbor true (wampcra_client real_crypto "anonymous" ("password" ++ String zero "") (Some [])) = true)).
