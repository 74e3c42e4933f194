(** * PropsAuth: theorems about signatures and client authenticators (C38, C39, C70, C71, C73).

    [crypto] stands for the third-party primitives, universally quantified; [ed25519_correct] (a signature made with a
    32-byte seed is 64 bytes long and verifies under the seed's 32-byte public key) is the only fact assumed about
    them, and only where written. *)
From Coq Require Import String Ascii List ZArith Bool.
From Verif Require Import PyBase Messages Encoding EncodingFacts Utf8 Auth AuthFacts ToyCrypto.
Import ListNotations.
Local Open Scope Z_scope.

(** ** C38 *)
Theorem C38_sign_verifies : forall cr challenge key,
  verify_wampcra_signature cr (sign_wampcra_challenge cr challenge key) challenge key = Ok true.
Proof. exact cra_verify_sign. Qed.
Print Assumptions C38_sign_verifies.

Theorem C38_verify_exact : forall cr signature challenge key,
  verify_wampcra_signature cr signature challenge key = Ok true <->
  b64decode_str signature = Ok (hmac_sha256 cr key (encode_str challenge)).
Proof. exact cra_verify_iff. Qed.
Print Assumptions C38_verify_exact.

(** For a signature in ASCII it always answers; a non-ASCII one raises ValueError. *)
Theorem C38_verify_answers : forall cr signature challenge key,
  (is_ascii (encode_str signature) = true ->
     exists b, verify_wampcra_signature cr signature challenge key = Ok b) /\
  (is_ascii (encode_str signature) = false ->
     exists m, verify_wampcra_signature cr signature challenge key = Raise (ValueError m)).
Proof. exact cra_verify_total. Qed.
Print Assumptions C38_verify_answers.

(** base64 used above really is invertible: nothing is lost between signer and verifier. *)
Theorem C38_base64_round_trip : forall b, b64decode_str (decode_str (b64encode b)) = Ok b.
Proof. exact b64_round_trip. Qed.
Print Assumptions C38_base64_round_trip.

Example C38_ex :
  sign_wampcra_challenge toy "chal" (encode_str "key") = "a2V5Y2hhbA=="%string /\
  verify_wampcra_signature toy "a2V5Y2hhbA==" "chal" (encode_str "key") = Ok true /\
  verify_wampcra_signature toy "a2V5Y2hhbB==" "chal" (encode_str "key") = Ok true /\   (* same octets *)
  verify_wampcra_signature toy "a2V5Y2hhbQ==" "chal" (encode_str "key") = Ok false /\
  verify_wampcra_signature toy "a2V5Y2hhb" "chal" (encode_str "key") = Ok false /\     (* bad padding *)
  verify_wampcra_signature toy "" "chal" (encode_str "key") = Ok false.
Proof. repeat split; vm_compute; reflexivity. Qed.

(** ** C39 *)
Theorem C39_sign_verifies : forall cr seed challenge raw,
  ed25519_correct cr -> length seed = 32%nat -> unhexlify_str challenge = Ok raw ->
  exists s, sign_cryptosign_challenge cr (VStr challenge) seed = Ok s /\
            verify_cryptosign_signature cr s (ed_public cr seed) = Ok true.
Proof. exact cs_sign_verify. Qed.
Print Assumptions C39_sign_verifies.

Theorem C39_generated_is_hex : forall random, unhexlify_str (generate_cryptosign_challenge random) = Ok random.
Proof. exact cs_generated. Qed.
Print Assumptions C39_generated_is_hex.

Theorem C39_verify_exact : forall cr signature public_key,
  verify_cryptosign_signature cr signature public_key = Ok true <->
  length public_key = 32%nat /\
  exists sig msg, unhexlify_str signature = Ok (sig ++ msg) /\ length sig = 64%nat /\
    ed_verify cr public_key msg sig = true.
Proof. exact cs_verify_iff. Qed.
Print Assumptions C39_verify_exact.

Definition seed0 : bytes := repeat (ascii_of_nat 7) 32.
Example C39_ex : ed25519_correct toy /\ length seed0 = 32%nat /\
  unhexlify_str "0aFF" = Ok [ascii_of_nat 10; ascii_of_nat 255] /\
  (exists s, sign_cryptosign_challenge toy (VStr "0aFF") seed0 = Ok s /\ String.length s = 132%nat /\
     verify_cryptosign_signature toy s (ed_public toy seed0) = Ok true /\
     verify_cryptosign_signature toy (s ++ "00") (ed_public toy seed0) = Ok true /\  (* toy pads messages with 0 *)
     verify_cryptosign_signature toy (s ++ "01") (ed_public toy seed0) = Ok false).
Proof.
  split; [exact toy_ed25519|]. split; [reflexivity|]. split; [vm_compute; reflexivity|].
  eexists. repeat split; vm_compute; reflexivity.
Qed.

(** ** C70 *)
Theorem C70_no_salt : forall cr secret ch, sget_default "salt" VNone (ch_extra ch) = VNone ->
  wampcra_authenticate cr secret ch =
    match sget "challenge" (ch_extra ch) with
    | None => Raise KeyError
    | Some (VStr c) => if utf8_valid (encode_str c) then Ok (mkAuthenticate (sign_wampcra_challenge cr c (encode_str secret)) [])
                       else Raise (ValueError ["surrogates not allowed"%string])
    | Some _ => Raise (AttributeError "object has no attribute 'encode'")
    end.
Proof. exact cra_client_no_salt. Qed.
Print Assumptions C70_no_salt.

Theorem C70_salt : forall cr secret ch salt, sget "salt" (ch_extra ch) = Some (VStr salt) ->
  let it := sget_default "iterations" (VInt 0) (ch_extra ch) in
  let kl := sget_default "keylen" (VInt 0) (ch_extra ch) in
  (utf8_valid (encode_str salt) = false \/ py_eq_int it 0 = true \/ py_eq_int kl 0 = true ->
     exists m, wampcra_authenticate cr secret ch = Raise (ValueError [m])) /\
  (utf8_valid (encode_str salt) = true -> py_eq_int it 0 = false -> py_eq_int kl 0 = false ->
     wampcra_authenticate cr secret ch =
       (let! dk := pbkdf2 cr (encode_str secret) (encode_str salt) it kl in
        match sget "challenge" (ch_extra ch) with
        | None => Raise KeyError
        | Some (VStr c) => if utf8_valid (encode_str c) then Ok (mkAuthenticate (sign_wampcra_challenge cr c (b64encode dk)) [])
                       else Raise (ValueError ["surrogates not allowed"%string])
        | Some _ => Raise (AttributeError "object has no attribute 'encode'")
        end)).
Proof. exact cra_client_salt. Qed.
Print Assumptions C70_salt.

Definition ch0 (extra : dict) := mkChallenge "wampcra" extra.
Example C70_ex :
  wampcra_authenticate toy "pw" (ch0 [(VStr "challenge", VStr "x")])
    = Ok (mkAuthenticate (sign_wampcra_challenge toy "x" (encode_str "pw")) []) /\
  wampcra_authenticate toy "pw" (ch0 [(VStr "challenge", VStr "x"); (VStr "salt", VStr "s"); (VStr "keylen", VInt 32)])
    = Raise (ValueError ["iterations string required in extra & should be greater than 0"%string]) /\
  wampcra_authenticate toy "pw" (ch0 [(VStr "challenge", VStr "x"); (VStr "salt", VStr "s"); (VStr "keylen", VInt 32);
      (VStr "iterations", VInt 1000)])
    = Ok (mkAuthenticate (sign_wampcra_challenge toy "x" (b64encode (encode_str "pws"))) []) /\
  wampcra_authenticate toy "pw" (ch0 []) = Raise KeyError.
Proof. repeat split; vm_compute; reflexivity. Qed.

(** ** C71 *)
Theorem C71_pubkey_announced : forall cr authid private_key extra cl after,
  cryptosign_client cr authid private_key extra = Ok (cl, after) ->
  exists seed, unhexlify_str private_key = Ok seed /\ length seed = 32%nat /\
    sget "pubkey" (cl_extra cl) =
      Some (match sget "pubkey" (extra_or_empty extra) with
            | Some v => v
            | None => VStr (decode_str (hexlify (ed_public cr seed)))
            end) /\
    (forall k, k <> "pubkey"%string -> sget k (cl_extra cl) = sget k (extra_or_empty extra)) /\
    exists added, cl_extra cl = extra_or_empty extra ++ added.
Proof. exact cs_client_pubkey. Qed.
Print Assumptions C71_pubkey_announced.

(** Construction succeeds exactly for a private key of 32 octets in hex. *)
Theorem C71_constructible : forall cr authid private_key extra seed, unhexlify_str private_key = Ok seed ->
  ((exists cl after, cryptosign_client cr authid private_key extra = Ok (cl, after)) <-> length seed = 32%nat).
Proof. exact cs_client_ok. Qed.
Print Assumptions C71_constructible.

Example C71_ex : exists cl after,
  cryptosign_client toy "joe" (decode_str (hexlify seed0)) (Some [(VStr "foo", VInt 1)]) = Ok (cl, after) /\
  cl_extra cl = [(VStr "foo", VInt 1); (VStr "pubkey", VStr (decode_str (hexlify seed0)))].
Proof. eexists. eexists. split; vm_compute; reflexivity. Qed.

(** ** C73: the constructor writes into the caller's dict. *)
Theorem C73_caller_dict_refuted : forall cr a1 a2 p1 p2 s1 s2,
  unhexlify_str p1 = Ok s1 -> unhexlify_str p2 = Ok s2 -> length s1 = 32%nat -> length s2 = 32%nat ->
  exists cl1 d cl2 d2,
    cryptosign_client cr a1 p1 (Some []) = Ok (cl1, Some d) /\
    cryptosign_client cr a2 p2 (Some d) = Ok (cl2, d2) /\
    d <> [] /\ sget "pubkey" (cl_extra cl2) = Some (VStr (decode_str (hexlify (ed_public cr s1)))).
Proof. exact cs_shared_extra. Qed.
Print Assumptions C73_caller_dict_refuted.

(** Missing: dicts without a pubkey entry, which the constructor changes. *)
Theorem C73_caller_dict_partial : forall cr authid private_key d cl after v,
  sget "pubkey" d = Some v -> cryptosign_client cr authid private_key (Some d) = Ok (cl, after) -> after = Some d.
Proof. exact cs_caller_dict_partial. Qed.
Print Assumptions C73_caller_dict_partial.

Example C73_ex :
  let p1 := decode_str (hexlify seed0) in
  let p2 := decode_str (hexlify (repeat (ascii_of_nat 9) 32)) in
  unhexlify_str p1 = Ok seed0 /\ unhexlify_str p2 = Ok (repeat (ascii_of_nat 9) 32) /\
  exists cl after, cryptosign_client toy "joe" p1 (Some [(VStr "pubkey", VNone)]) = Ok (cl, after).
Proof. repeat split; try (vm_compute; reflexivity). eexists. eexists. vm_compute. reflexivity. Qed.
