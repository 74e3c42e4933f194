(** * PropsE2E: handshakes and message streams over the concrete codecs (C43, C44, C86-C88). *)
From Coq Require Import String Ascii List ZArith Bool Lia.
From Verif Require Import PyBase Messages Parse Serializer SpecSchema SerializerFacts Encoding Auth AuthFacts ToyCrypto.
From Verif Require Import SpecHistory SpecAcceptor AcceptorFacts Joiner Acceptor Handshake HandshakeFacts.
From Verif Require Import Utf8 CodecBase SpecCodec MsgPack Cbor Json Float Codecs CodecsFacts SpecE2E HandshakeCodec StreamFacts.
Import ListNotations.
Local Open Scope Z_scope.

(** ** C43, C44 without any assumption about the serializer: [c] is the JSON, MsgPack or CBOR codec. *)
Theorem C43_python_no_authenticator : forall cr c e1 e2 roles sroles sid realm cl, is_python_codec c ->
  handshake_data realm (cl_authid cl) (cl_extra cl) roles sroles sid -> short_text (cl_method cl) ->
  agreed (handshake cr c (cl_authenticate cl) e1 e2 roles (joiner_with realm cl) (acceptor_init sroles false sid))
    (mkDetails (PyInt sid) realm (Some "anonymous"%string) (Some "anonymous"%string)).
Proof. intros cr c e1 e2 roles sroles sid realm cl C. exact (py_none cr c e1 e2 roles sroles sid realm C cl). Qed.
Print Assumptions C43_python_no_authenticator.

Theorem C43_python_anonymous : forall cr c e1 e2 roles sroles sid realm authid extra r, is_python_codec c ->
  handshake_data realm authid (extra_or_empty extra) roles sroles sid ->
  e_auth e1 (AnonymousRequest realm (Some authid) (Some (extra_or_empty extra))) = Accept r ->
  short_text (resp_authid r) -> short_text (resp_authrole r) ->
  let cl := anonymous_client authid extra in
  agreed (handshake cr c (cl_authenticate cl) e1 e2 roles (joiner_with realm cl) (acceptor_init sroles true sid))
    (mkDetails (PyInt sid) realm (Some (resp_authid r)) (Some (resp_authrole r))).
Proof. intros cr c e1 e2 roles sroles sid realm authid extra r C. exact (py_anonymous cr c e1 e2 roles sroles sid realm authid C extra r). Qed.
Print Assumptions C43_python_anonymous.

(** The authenticator's verdict on the ticket decides. *)
Theorem C43_C44_python_ticket : forall cr c e1 e2 roles sroles sid realm authid ticket extra, is_python_codec c ->
  handshake_data realm authid (extra_or_empty extra) roles sroles sid -> short_text ticket ->
  let cl := ticket_client authid ticket extra in
  let result := handshake cr c (cl_authenticate cl) e1 e2 roles (joiner_with realm cl) (acceptor_init sroles true sid) in
  match e_auth e2 (TicketRequest realm (Some authid) (Some (extra_or_empty extra)) ticket) with
  | Accept r => short_text (resp_authid r) -> short_text (resp_authrole r) ->
                agreed result (mkDetails (PyInt sid) realm (Some (resp_authid r)) (Some (resp_authrole r)))
  | Reject _ => refused result
  end.
Proof. intros cr c e1 e2 roles sroles sid realm authid ticket extra C. exact (py_ticket cr c e1 e2 roles sroles sid realm authid C ticket extra). Qed.
Print Assumptions C43_C44_python_ticket.

(** The right secret is welcomed; a secret whose HMAC of the challenge differs is refused. *)
Theorem C43_C44_python_wampcra : forall cr c e1 e2 roles sroles sid realm authid my_secret extra aid arole secret salted, is_python_codec c ->
  handshake_data realm authid (extra_or_empty extra) roles sroles sid ->
  e_auth e1 (WAMPCRARequest realm (Some authid) (Some (extra_or_empty extra))) = Accept (WAMPCRAResponse aid arole secret salted) ->
  short_text aid -> short_text arole -> utf8_valid (encode_str (e_now e1)) = true -> e_json_dumps e1 = dumps python_json ->
  (forall k m, length (hmac_sha256 cr k m) = 32%nat) ->
  exists text, generate_wampcra_challenge (dumps python_json) (e_random e1) (e_now e1) sid aid arole "dynamic" = Ok text /\
  (Z.of_nat (String.length text) < 2 ^ 32 ->
   let cl := wampcra_client cr authid my_secret extra in
   let result := handshake cr c (cl_authenticate cl) e1 e2 roles (joiner_with realm cl) (acceptor_init sroles true sid) in
   (my_secret = secret -> agreed result (mkDetails (PyInt sid) realm (Some aid) (Some arole))) /\
   (hmac_sha256 cr (encode_str my_secret) (encode_str text) <> hmac_sha256 cr (encode_str secret) (encode_str text) -> refused result)).
Proof.
  intros cr c e1 e2 roles sroles sid realm authid my_secret extra aid arole secret salted C.
  exact (py_wampcra cr c e1 e2 roles sroles sid realm authid C my_secret extra aid arole secret salted).
Qed.
Print Assumptions C43_C44_python_wampcra.

Theorem C43_python_cryptosign : forall cr c e1 e2 roles sroles sid realm authid priv seed extra cl after r, is_python_codec c ->
  ed25519_correct cr -> cryptosign_client cr authid priv extra = Ok (cl, after) -> sget "pubkey" (extra_or_empty extra) = None ->
  unhexlify_str priv = Ok seed -> handshake_data realm authid (cl_extra cl) roles sroles sid ->
  e_auth e1 (CryptoSignRequest realm (Some authid) (Some (cl_extra cl)) (VStr (decode_str (hexlify (ed_public cr seed))))) = Accept r ->
  (length (e_random e1) < 200)%nat -> short_text (resp_authid r) -> short_text (resp_authrole r) ->
  agreed (handshake cr c (cl_authenticate cl) e1 e2 roles (joiner_with realm cl) (acceptor_init sroles true sid))
    (mkDetails (PyInt sid) realm (Some (resp_authid r)) (Some (resp_authrole r))).
Proof.
  intros cr c e1 e2 roles sroles sid realm authid priv seed extra cl after r C.
  exact (py_cryptosign cr c e1 e2 roles sroles sid realm authid C priv seed extra cl after r).
Qed.
Print Assumptions C43_python_cryptosign.

(** Actual runs, bytes and all. *)
Definition toy32 : crypto := mkCrypto (fun k m => pad 32 (rev m ++ k)) (pbkdf2 toy) (ed_public toy) (ed_sign toy) (ed_verify toy).
Definition ex_env : env :=
  mkEnv (fun r => match r with
                  | WAMPCRARequest _ _ _ => Accept (WAMPCRAResponse "joe" "user" "s3cret" None)
                  | TicketRequest _ _ _ t => if String.eqb t "t" then Accept (PlainResponse "joe" "user") else Reject []
                  | _ => Accept (PlainResponse "joe" "user")
                  end) (encode_str "0123456789abcdef") "2024-01-01T00:00:00.000Z" (dumps python_json).
Definition ex_seed : string := "000102030405060708090a0b0c0d0e0f101112131415161718191a1b1c1d1e1f".
Definition ex_run (c : codec) (cl : client_auth) := handshake toy32 c (cl_authenticate cl) ex_env ex_env None (joiner_with "realm1" cl) (acceptor_init None true 7).
Definition ex_details := mkDetails (PyInt 7) "realm1" (Some "joe"%string) (Some "user"%string).
Example C43_ex_data : handshake_data "realm1" "joe" [] None None 7 /\ (forall k m, length (hmac_sha256 toy32 k m) = 32%nat).
Proof.
  split; [|intros; apply pad_length]. split; [split; [reflexivity|vm_compute; reflexivity]|]. split; [split; [reflexivity|vm_compute; reflexivity]|].
  split; [split; [vm_compute; repeat split; repeat constructor|apply Nat.le_0_l]|]. split; [exact I|]. split; [exact I|]. lia.
Qed.
Example C43_ex_runs : Forall (fun c =>
  agreed (ex_run c (ticket_client "joe" "t" None)) ex_details /\ refused (ex_run c (ticket_client "joe" "u" None)) /\
  agreed (ex_run c (wampcra_client toy32 "joe" "s3cret" None)) ex_details /\
  match cryptosign_client toy32 "joe" ex_seed None with Ok (cl, _) => agreed (ex_run c cl) ex_details | Raise _ => False end)
  [python_json; msgpack; cbor].
Proof.
  repeat apply Forall_cons; try apply Forall_nil; (split; [vm_compute; repeat split|]); (split; [vm_compute; split; [reflexivity|split; eexists; reflexivity]|]);
    (split; [vm_compute; repeat split|]); vm_compute; repeat split.
Qed.

(** ** C86: a recorded WAMP-CRA answer is good for one challenge only. *)
Theorem C86_wampcra_no_replay :
  forall cr e m w e0 m0 c0 aid arole secret salted roles ha sid ops e' w' e0' m0' c0' aid' arole' secret' salted' roles' ha' sid' ops',
  latest challenge_of (snd (arun cr roles ha sid ops)) = Some (e0, m0, c0) ->
  latest challenge_of (snd (arun cr roles' ha' sid' ops')) = Some (e0', m0', c0') ->
  first_method m0 = VStr "wampcra" -> first_method m0' = VStr "wampcra" ->
  e_auth e0 (WAMPCRARequest (he_realm m0) (he_authid m0) (he_authextra m0)) = Accept (WAMPCRAResponse aid arole secret salted) ->
  e_auth e0' (WAMPCRARequest (he_realm m0') (he_authid m0') (he_authextra m0')) = Accept (WAMPCRAResponse aid' arole' secret' salted') ->
  e_json_dumps e0 = dumps python_json -> e_json_dumps e0' = dumps python_json ->
  Forall (fun s => utf8_valid (encode_str s) = true) [e_now e0; aid; arole; e_now e0'; aid'; arole'] ->
  Z.abs sid < 10 ^ 4300 -> Z.abs sid' < 10 ^ 4300 ->
  snd (acceptor_receive_message cr e (fst (arun cr roles ha sid ops)) (Authenticate m)) = Ok (Some (Welcome w)) ->
  snd (acceptor_receive_message cr e' (fst (arun cr roles' ha' sid' ops')) (Authenticate m)) = Ok (Some (Welcome w')) ->
  (e_random e0 = e_random e0' /\ e_now e0 = e_now e0' /\ sid = sid' /\ aid = aid' /\ arole = arole' /\ secret = secret') \/
  exists text text', ch_extra c0 = [(VStr "challenge", VStr text)] /\ ch_extra c0' = [(VStr "challenge", VStr text')] /\
    (secret, text) <> (secret', text') /\
    hmac_sha256 cr (encode_str secret) (encode_str text) = hmac_sha256 cr (encode_str secret') (encode_str text').
Proof. exact cra_one_challenge. Qed.
Print Assumptions C86_wampcra_no_replay.
Definition cra_hello := Hello (hello_with "realm1" "joe" "wampcra" [] None).
Definition cra_text : string := match generate_wampcra_challenge (dumps python_json) (e_random ex_env) (e_now ex_env) 7 "joe" "user" "dynamic" with Ok t => t | Raise _ => "" end.
Definition cra_acceptor := arun toy32 None true 7 [(ex_env, cra_hello)].
Example C86_ex :
  match latest challenge_of (snd cra_acceptor) with Some (_, _, c0) => ch_extra c0 = [(VStr "challenge", VStr cra_text)] | None => False end /\
  match snd (acceptor_receive_message toy32 ex_env (fst cra_acceptor)
          (Authenticate (mkAuthenticate (sign_wampcra_challenge toy32 cra_text (encode_str "s3cret")) []))) with
  | Ok (Some (Welcome _)) => True
  | _ => False
  end.
Proof. split; vm_compute; [reflexivity|exact I]. Qed.

(** ** C87: the WAMP-CRA challenge is JSON text saying exactly what it should. *)
Theorem C87_challenge_text : forall nonce now sid authid authrole provider, Z.abs sid < 10 ^ 4300 ->
  Forall (fun s => utf8_valid (encode_str s) = true) [now; authid; authrole; provider] ->
  exists text, generate_wampcra_challenge (dumps python_json) nonce now sid authid authrole provider = Ok text /\
    is_ascii (encode_str text) = true /\
    exists d, loads python_json (encode_str text) = Ok (VDict d) /\ length d = 7%nat /\
      sget "nonce" d = Some (VStr (decode_str (hexlify nonce))) /\ sget "authprovider" d = Some (VStr provider) /\
      sget "authid" d = Some (VStr authid) /\ sget "authrole" d = Some (VStr authrole) /\ sget "authmethod" d = Some (VStr "wampcra") /\
      sget "session" d = Some (VInt sid) /\ sget "timestamp" d = Some (VStr now).
Proof. exact challenge_says. Qed.
Print Assumptions C87_challenge_text.
Example C87_ex : cra_text = "{""nonce"": ""30313233343536373839616263646566"", ""authprovider"": ""dynamic"", ""authid"": ""joe"", ""authrole"": ""user"", ""authmethod"": ""wampcra"", ""session"": 7, ""timestamp"": ""2024-01-01T00:00:00.000Z""}"%string.
Proof. vm_compute. reflexivity. Qed.

(** ** C88: messages over a RawSocket stream. *)
Theorem C88_stream : forall c ms,
  Forall (fun m => carries c m /\ forall b, serialize c m = Ok b -> Z.of_nat (length b) < 2 ^ 24) ms ->
  exists s, send_messages c ms = Ok s /\
    forall p q fuel, s = p ++ q -> (length ms < fuel)%nat ->
      exists n, read_messages c fuel p = map (fun m => Ok (normalise m)) (firstn n ms) /\ (q = [] -> (length ms <= n)%nat).
Proof. exact stream_messages. Qed.
Print Assumptions C88_stream.
Theorem C88_stream_python : forall c ms, is_python_codec c ->
  Forall (fun m => wf_message m /\ portable (VList (marshal m)) /\ forall b, serialize c m = Ok b -> Z.of_nat (length b) < 2 ^ 24) ms ->
  exists s, send_messages c ms = Ok s /\
    forall p q fuel, s = p ++ q -> (length ms < fuel)%nat ->
      exists n, read_messages c fuel p = map (fun m => Ok (normalise m)) (firstn n ms) /\ (q = [] -> (length ms <= n)%nat).
Proof. exact stream_messages_python. Qed.
Print Assumptions C88_stream_python.
Example C88_ex :
  let ms := [Subscribe (mkSubscribe (PyInt 1) "t" []); Publish (mkPublish (PyInt 2) "t" (Some [VInt 5]) None [])] in
  match send_messages msgpack ms with
  | Ok s => read_messages msgpack 5 s = map Ok ms /\ read_messages msgpack 5 (firstn 20 s) = map Ok (firstn 1 ms) /\ length s = 22%nat
  | Raise _ => False
  end.
Proof. vm_compute. repeat split; reflexivity. Qed.
