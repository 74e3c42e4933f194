(** * PropsCrypto: theorems with the concrete primitives of Sha2.v and Ed25519.v ([real_crypto]): C104, C105. *)
From Coq Require Import String Ascii List ZArith Bool Lia.
From Verif Require Import PyBase Messages Parse Serializer Encoding Auth AuthFacts Sha2 Ed25519 SpecCrypto.
From Verif Require Import Joiner Acceptor Handshake HandshakeFacts Utf8 CodecBase SpecCodec MsgPack Cbor Json Codecs CodecsFacts SpecE2E HandshakeCodec CryptoFacts.
Import ListNotations.
Local Open Scope Z_scope.

(** ** C104: key derivation and signatures. *)
Theorem C104_derive_accepts : forall salt secret iterations keylen,
  (exists key, derive_cra_key real_crypto salt secret iterations keylen = Ok key) <->
  (exists s i n, salt = VStr s /\ unicode s /\ count iterations i /\ key_size keylen n).
Proof.
  intros salt secret it kl. split.
  - intros [k H]. apply derive_ok in H as (s & i & n & A & U & B & C & _). exists s, i, n. auto.
  - intros (s & i & n & A & U & B & C). eexists. apply derive_ok. exists s, i, n. auto 6.
Qed.
Print Assumptions C104_derive_accepts.
Theorem C104_derive_length : forall salt secret iterations keylen key,
  derive_cra_key real_crypto salt secret iterations keylen = Ok key ->
  exists n raw, key_size keylen n /\ b64decode_str (decode_str key) = Ok raw /\ Z.of_nat (length raw) = n.
Proof. exact derive_length. Qed.
Print Assumptions C104_derive_length.
Theorem C104_derive_raises : forall salt secret iterations keylen e,
  derive_cra_key real_crypto salt secret iterations keylen = Raise e ->
  ((forall s, salt <> VStr s) /\ exists m, e = AttributeError m) \/
  (exists s, salt = VStr s) /\
  ((exists m, e = ValueError m) /\ ((exists s, salt = VStr s /\ ~ unicode s) \/ py_eq_int iterations 0 = true \/ py_eq_int keylen 0 = true \/
       (exists z, int_of iterations = Some z /\ z < 1) \/ exists z, int_of keylen = Some z /\ z < 1) \/
   (exists m, e = OverflowError m) /\ ((exists z, int_of iterations = Some z /\ ~ (1 <= z <= 2 ^ 31 - 1)) \/
       exists z, int_of keylen = Some z /\ ~ (1 <= z <= 2 ^ 31 - 1)) \/
   (exists m, e = TypeError m) /\ (int_of iterations = None \/ (int_of keylen = None /\ keylen <> VNone))).
Proof. exact derive_raises. Qed.
Print Assumptions C104_derive_raises.
Theorem C104_wampcra_answer : forall secret ch a, wampcra_authenticate real_crypto secret ch = Ok a ->
  length (encode_str (au_signature a)) = 44%nat /\ is_ascii (encode_str (au_signature a)) = true /\ au_extra a = [].
Proof. exact client_answer. Qed.
Print Assumptions C104_wampcra_answer.
Theorem C104_cryptosign_answer : forall authid priv extra cl after, cryptosign_client real_crypto authid priv extra = Ok (cl, after) ->
  sget "pubkey" (extra_or_empty extra) = None ->
  (exists pub pk, sget "pubkey" (cl_extra cl) = Some (VStr pub) /\ String.length pub = 64%nat /\ unhexlify_str pub = Ok pk /\ length pk = 32%nat) /\
  forall ch a, cl_authenticate cl ch = Ok a ->
    exists c sig raw, sget "challenge" (ch_extra ch) = Some (VStr c) /\ au_signature a = (sig ++ c)%string /\ au_extra a = [] /\
      String.length sig = 128%nat /\ unhexlify_str sig = Ok raw /\ length raw = 64%nat.
Proof. exact cryptosign_shape. Qed.
Print Assumptions C104_cryptosign_answer.
Example C104_ex :
  count (VInt 1000) 1000 /\ count (VBool true) 1 /\ key_size VNone 32 /\ key_size (VInt 20) 20 /\
  derive_cra_key real_crypto (VStr "salt") "s3cret" (VInt 1) (VInt (2 ^ 31)) = Raise (OverflowError "key length is too great.") /\
  match derive_cra_key real_crypto (VStr "salt") "s3cret" (VStr "1000") (VInt 32) with Raise (TypeError _) => True | _ => False end /\
  match derive_cra_key real_crypto (VStr "salt") "s3cret" (VInt 1000) (VInt (-1)) with Raise (ValueError _) => True | _ => False end.
Proof. repeat split; try (vm_compute; congruence); try (left; split; reflexivity). right. split; [reflexivity|lia]. Qed.
Example C104_ex_client :
  (exists a, wampcra_authenticate real_crypto "s3cret" (mkChallenge "wampcra" [(VStr "challenge", VStr "x")]) = Ok a) /\
  exists cl after, cryptosign_client real_crypto "joe" "49fe40797d16012c92004a19cdd217a2b74ac825e3855d445c455988d70c8973" None = Ok (cl, after) /\
    exists a, cl_authenticate cl (mkChallenge "cryptosign" [(VStr "challenge", VStr "a1d4")]) = Ok a.
Proof. split; [eexists; reflexivity|]. eexists _, _. split; [reflexivity|]. eexists. reflexivity. Qed.

(** ** C105: WAMP-CRA logins with the real HMAC: the right secret is welcomed over every serializer, ... *)
Theorem C105_right_secret_welcomed : forall c e1 e2 roles sroles sid realm authid extra aid arole secret salted, is_python_codec c ->
  handshake_data realm authid (extra_or_empty extra) roles sroles sid ->
  e_auth e1 (WAMPCRARequest realm (Some authid) (Some (extra_or_empty extra))) = Accept (WAMPCRAResponse aid arole secret salted) ->
  short_text aid -> short_text arole -> utf8_valid (encode_str (e_now e1)) = true -> e_json_dumps e1 = dumps python_json ->
  exists text, generate_wampcra_challenge (dumps python_json) (e_random e1) (e_now e1) sid aid arole "dynamic" = Ok text /\
  (Z.of_nat (String.length text) < 2 ^ 32 ->
   let cl := wampcra_client real_crypto authid secret extra in
   agreed (handshake real_crypto c (cl_authenticate cl) e1 e2 roles (joiner_with realm cl) (acceptor_init sroles true sid))
     (mkDetails (PyInt sid) realm (Some aid) (Some arole))).
Proof. exact real_wampcra_right. Qed.
Print Assumptions C105_right_secret_welcomed.

(** ... but so is every secret of fewer than 64 octets followed by a NUL character, because HMAC pads its key with
    zeros. *)
Theorem C105_only_right_secret_refuted : forall c e1 e2 roles sroles sid realm authid extra aid arole secret salted, is_python_codec c ->
  handshake_data realm authid (extra_or_empty extra) roles sroles sid ->
  e_auth e1 (WAMPCRARequest realm (Some authid) (Some (extra_or_empty extra))) = Accept (WAMPCRAResponse aid arole secret salted) ->
  short_text aid -> short_text arole -> utf8_valid (encode_str (e_now e1)) = true -> e_json_dumps e1 = dumps python_json ->
  (length (encode_str secret) < 64)%nat ->
  exists text, generate_wampcra_challenge (dumps python_json) (e_random e1) (e_now e1) sid aid arole "dynamic" = Ok text /\
  (Z.of_nat (String.length text) < 2 ^ 32 ->
   let cl := wampcra_client real_crypto authid (secret ++ nul) extra in
   agreed (handshake real_crypto c (cl_authenticate cl) e1 e2 roles (joiner_with realm cl) (acceptor_init sroles true sid))
     (mkDetails (PyInt sid) realm (Some aid) (Some arole))).
Proof. exact real_wampcra_nul. Qed.
Print Assumptions C105_only_right_secret_refuted.

(** Missing: that different secrets sign differently, which is false in general (above) and an assumption about HMAC
    otherwise. *)
Theorem C105_wrong_secret_refused_partial : forall c e1 e2 roles sroles sid realm authid my_secret extra aid arole secret salted, is_python_codec c ->
  handshake_data realm authid (extra_or_empty extra) roles sroles sid ->
  e_auth e1 (WAMPCRARequest realm (Some authid) (Some (extra_or_empty extra))) = Accept (WAMPCRAResponse aid arole secret salted) ->
  short_text aid -> short_text arole -> utf8_valid (encode_str (e_now e1)) = true -> e_json_dumps e1 = dumps python_json ->
  exists text, generate_wampcra_challenge (dumps python_json) (e_random e1) (e_now e1) sid aid arole "dynamic" = Ok text /\
  (Z.of_nat (String.length text) < 2 ^ 32 ->
   let cl := wampcra_client real_crypto authid my_secret extra in
   hmac (encode_str my_secret) (encode_str text) <> hmac (encode_str secret) (encode_str text) ->
   refused (handshake real_crypto c (cl_authenticate cl) e1 e2 roles (joiner_with realm cl) (acceptor_init sroles true sid))).
Proof. exact real_wampcra_wrong. Qed.
Print Assumptions C105_wrong_secret_refused_partial.

Definition cra_env : env :=
  mkEnv (fun r => match r with WAMPCRARequest _ _ _ => Accept (WAMPCRAResponse "joe" "user" "s3cret" None) | _ => Reject [] end)
    (encode_str "0123456789abcdef") "2024-01-01T00:00:00.000Z" (dumps python_json).
Definition cra_text : string :=
  "{""nonce"": ""30313233343536373839616263646566"", ""authprovider"": ""dynamic"", ""authid"": ""joe"", ""authrole"": ""user"", ""authmethod"": ""wampcra"", ""session"": 7, ""timestamp"": ""2024-01-01T00:00:00.000Z""}".
Example C105_ex :
  handshake_data "realm1" "joe" [] None None 7 /\
  e_auth cra_env (WAMPCRARequest "realm1" (Some "joe"%string) (Some [])) = Accept (WAMPCRAResponse "joe" "user" "s3cret" None) /\
  short_text "joe" /\ short_text "user" /\ utf8_valid (encode_str (e_now cra_env)) = true /\
  generate_wampcra_challenge (dumps python_json) (e_random cra_env) (e_now cra_env) 7 "joe" "user" "dynamic" = Ok cra_text /\
  Z.of_nat (String.length cra_text) < 2 ^ 32 /\ (length (encode_str "s3cret") < 64)%nat /\ ("s3cret" ++ nul <> "s3cret")%string /\
  hmac (encode_str "s3creT") (encode_str cra_text) <> hmac (encode_str "s3cret") (encode_str cra_text).
Proof.
  split. { split; [split; [reflexivity|vm_compute; reflexivity]|]. split; [split; [reflexivity|vm_compute; reflexivity]|].
    split; [split; [vm_compute; repeat split; repeat constructor|apply Nat.le_0_l]|]. split; [exact Logic.I|]. split; [exact Logic.I|]. lia. }
  split; [reflexivity|]. split; [split; [reflexivity|vm_compute; reflexivity]|]. split; [split; [reflexivity|vm_compute; reflexivity]|].
  split; [vm_compute; reflexivity|]. split; [vm_compute; reflexivity|]. split; [vm_compute; reflexivity|]. split; [vm_compute; lia|].
  split; [vm_compute; discriminate|]. intros E. apply (f_equal (fun b => match b with a :: _ => N_of_ascii a | [] => 0%N end)) in E. vm_compute in E. discriminate E.
Qed.
