(** * PropsHandshake: a joiner and an acceptor exchanging bytes (C43, C44, C72).

    [carries c m]: the message is well formed and the codec decodes what it encoded for it.  [agreed r d]: the exchange
    ended normally and both sides report the session details [d]. [refused r]: the joiner raised
    ApplicationError(wamp.error.authentication_failed) and neither side has session details. *)
From Coq Require Import String Ascii List ZArith Bool Lia.
From Verif Require Import PyBase Messages Parse Serializer SpecSchema SerializerFacts Encoding EncodingFacts Utf8 Auth AuthFacts.
From Verif Require Import Joiner Acceptor Handshake HandshakeFacts ToyCrypto.
Import ListNotations.
Local Open Scope Z_scope.

(** ** C43 *)
Theorem C43_no_authenticator : forall cr c e1 e2 roles sroles sid realm cl,
  carries c (Hello (hello_with realm (cl_authid cl) (cl_method cl) (cl_extra cl) roles)) ->
  carries c (welcome_msg sroles sid "anonymous" "anonymous" (Some "anonymous"%string)) ->
  agreed (handshake cr c (cl_authenticate cl) e1 e2 roles (joiner_with realm cl) (acceptor_init sroles false sid))
    (mkDetails (PyInt sid) realm (Some "anonymous"%string) (Some "anonymous"%string)).
Proof. exact e2e_none. Qed.
Print Assumptions C43_no_authenticator.

Theorem C43_anonymous : forall cr c e1 e2 roles sroles sid realm authid extra r,
  let cl := anonymous_client authid extra in
  e_auth e1 (AnonymousRequest realm (Some authid) (Some (cl_extra cl))) = Accept r ->
  carries c (Hello (hello_with realm authid "anonymous" (cl_extra cl) roles)) ->
  carries c (welcome_msg sroles sid (resp_authid r) (resp_authrole r) (Some "anonymous"%string)) ->
  agreed (handshake cr c (cl_authenticate cl) e1 e2 roles (joiner_with realm cl) (acceptor_init sroles true sid))
    (mkDetails (PyInt sid) realm (Some (resp_authid r)) (Some (resp_authrole r))).
Proof. exact e2e_anonymous. Qed.
Print Assumptions C43_anonymous.

Theorem C43_ticket : forall cr c e1 e2 roles sroles sid realm authid ticket extra r,
  let cl := ticket_client authid ticket extra in
  carries c (Hello (hello_with realm authid "ticket" (cl_extra cl) roles)) ->
  carries c (Challenge (mkChallenge "ticket" [])) ->
  carries c (Authenticate (mkAuthenticate ticket [])) ->
  e_auth e2 (TicketRequest realm (Some authid) (Some (cl_extra cl)) ticket) = Accept r ->
  carries c (welcome_msg sroles sid (resp_authid r) (resp_authrole r) None) ->
  agreed (handshake cr c (cl_authenticate cl) e1 e2 roles (joiner_with realm cl) (acceptor_init sroles true sid))
    (mkDetails (PyInt sid) realm (Some (resp_authid r)) (Some (resp_authrole r))).
Proof.
  intros cr c e1 e2 roles sroles sid realm authid ticket extra r cl C1 C2 C3.
  exact (proj1 (e2e_ticket cr c e1 e2 roles sroles sid realm authid ticket extra C1 C2 C3) r).
Qed.
Print Assumptions C43_ticket.

Theorem C43_wampcra : forall cr c e1 e2 roles sroles sid realm authid secret extra aid arole salted text,
  let cl := wampcra_client cr authid secret extra in
  let sig := sign_wampcra_challenge cr text (encode_str secret) in
  e_auth e1 (WAMPCRARequest realm (Some authid) (Some (cl_extra cl))) = Accept (WAMPCRAResponse aid arole secret salted) ->
  generate_wampcra_challenge (e_json_dumps e1) (e_random e1) (e_now e1) sid aid arole "dynamic" = Ok text -> utf8_valid (encode_str text) = true ->
  carries c (Hello (hello_with realm authid "wampcra" (cl_extra cl) roles)) ->
  carries c (Challenge (mkChallenge "wampcra" [(VStr "challenge", VStr text)])) ->
  carries c (Authenticate (mkAuthenticate sig [])) ->
  carries c (welcome_msg sroles sid aid arole None) ->
  agreed (handshake cr c (cl_authenticate cl) e1 e2 roles (joiner_with realm cl) (acceptor_init sroles true sid))
    (mkDetails (PyInt sid) realm (Some aid) (Some arole)).
Proof.
  intros cr c e1 e2 roles sroles sid realm authid secret extra aid arole salted text cl sig A G V C1 C2 C3.
  exact (proj1 (e2e_wampcra cr c e1 e2 roles sroles sid realm authid secret extra aid arole secret salted text A G V C1 C2 C3) eq_refl).
Qed.
Print Assumptions C43_wampcra.

Theorem C43_cryptosign : forall cr c e1 e2 roles sroles sid realm authid priv seed extra cl after r sig,
  ed25519_correct cr ->
  cryptosign_client cr authid priv extra = Ok (cl, after) -> sget "pubkey" (extra_or_empty extra) = None ->
  unhexlify_str priv = Ok seed ->
  let pubkey := VStr (decode_str (hexlify (ed_public cr seed))) in
  let challenge := generate_cryptosign_challenge (e_random e1) in
  e_auth e1 (CryptoSignRequest realm (Some authid) (Some (cl_extra cl)) pubkey) = Accept r ->
  sign_cryptosign_challenge cr (VStr challenge) seed = Ok sig ->
  carries c (Hello (hello_with realm authid "cryptosign" (cl_extra cl) roles)) ->
  carries c (Challenge (mkChallenge "cryptosign" [(VStr "challenge", VStr challenge)])) ->
  carries c (Authenticate (mkAuthenticate sig [])) ->
  carries c (welcome_msg sroles sid (resp_authid r) (resp_authrole r) None) ->
  agreed (handshake cr c (cl_authenticate cl) e1 e2 roles (joiner_with realm cl) (acceptor_init sroles true sid))
    (mkDetails (PyInt sid) realm (Some (resp_authid r)) (Some (resp_authrole r))).
Proof. exact e2e_cryptosign. Qed.
Print Assumptions C43_cryptosign.

(** A codec for the examples: it knows one message per message type. *)
Definition table_codec (ms : list message) : codec :=
  mkCodec (fun v => match v with VList (VInt n :: _) => Ok [ascii_of_N (Z.to_N n)] | _ => Raise (CodecError "") end)
    (fun b => match b with
              | [x] => match find (fun m => Z.eqb (message_TYPE m) (Z.of_N (N_of_ascii x))) ms with
                       | Some m => Ok (VList (marshal m)) | None => Raise (CodecError "") end
              | _ => Raise (CodecError "")
              end).
Definition ex_env (accept : bool) : env :=
  mkEnv (fun r => match r with
                  | WAMPCRARequest _ _ _ => Accept (WAMPCRAResponse "joe" "user" "s3cret" None)
                  | TicketRequest _ _ _ _ => if accept then Accept (PlainResponse "joe" "user") else Reject []
                  | _ => Accept (PlainResponse "joe" "user")
                  end) (encode_str "rnd") "2024" (fun _ => Ok (encode_str "{}")).
Definition ex_hello (method : string) : message := Hello (hello_with "realm1" "joe" method [] None).
Definition ex_final := [welcome_msg None 7 "joe" "user" None; auth_abort None].

Ltac carried := split; [vm_compute; intuition (eauto; try discriminate; try congruence)
                       |eexists; split; [vm_compute; reflexivity|split; [discriminate|vm_compute; reflexivity]]].

Example C43_ex_ticket :
  let c := table_codec ([ex_hello "ticket"; Challenge (mkChallenge "ticket" []); Authenticate (mkAuthenticate "t" [])] ++ ex_final) in
  carries c (Challenge (mkChallenge "ticket" [])) /\ carries c (Authenticate (mkAuthenticate "t" [])) /\
  carries c (auth_abort None) /\ codec_round_trips c (VList (marshal (ex_hello "ticket"))) /\
  codec_round_trips c (VList (marshal (welcome_msg None 7 "joe" "user" None))) /\
  agreed (handshake toy c (cl_authenticate (ticket_client "joe" "t" None)) (ex_env true) (ex_env true) None
            (joiner_with "realm1" (ticket_client "joe" "t" None)) (acceptor_init None true 7))
    (mkDetails (PyInt 7) "realm1" (Some "joe"%string) (Some "user"%string)) /\
  refused (handshake toy c (cl_authenticate (ticket_client "joe" "t" None)) (ex_env false) (ex_env false) None
            (joiner_with "realm1" (ticket_client "joe" "t" None)) (acceptor_init None true 7)).
Proof.
  split; [carried|]. split; [carried|]. split; [carried|].
  split; [eexists; split; [vm_compute; reflexivity|split; [discriminate|vm_compute; reflexivity]]|].
  split; [eexists; split; [vm_compute; reflexivity|split; [discriminate|vm_compute; reflexivity]]|].
  split; [vm_compute; repeat split|]. vm_compute. split; [reflexivity|]. split; eexists; reflexivity.
Qed.

Example C43_ex_wf : wf_message (ex_hello "ticket") /\ wf_message (welcome_msg None 7 "joe" "user" None).
Proof. split; [apply wf_hello_default|apply wf_welcome_default; lia]. Qed.

(** ** C44 *)
Theorem C44_wrong_ticket : forall cr c e1 e2 roles sroles sid realm authid ticket extra args,
  let cl := ticket_client authid ticket extra in
  carries c (Hello (hello_with realm authid "ticket" (cl_extra cl) roles)) ->
  carries c (Challenge (mkChallenge "ticket" [])) ->
  carries c (Authenticate (mkAuthenticate ticket [])) ->
  carries c (auth_abort None) ->
  e_auth e2 (TicketRequest realm (Some authid) (Some (cl_extra cl)) ticket) = Reject args ->
  refused (handshake cr c (cl_authenticate cl) e1 e2 roles (joiner_with realm cl) (acceptor_init sroles true sid)).
Proof.
  intros cr c e1 e2 roles sroles sid realm authid ticket extra args cl C1 C2 C3 C4 R.
  exact (proj2 (e2e_ticket cr c e1 e2 roles sroles sid realm authid ticket extra C1 C2 C3) args R C4).
Qed.
Print Assumptions C44_wrong_ticket.

Theorem C44_wrong_secret : forall cr c e1 e2 roles sroles sid realm authid my_secret extra aid arole secret salted text,
  let cl := wampcra_client cr authid my_secret extra in
  let sig := sign_wampcra_challenge cr text (encode_str my_secret) in
  e_auth e1 (WAMPCRARequest realm (Some authid) (Some (cl_extra cl))) = Accept (WAMPCRAResponse aid arole secret salted) ->
  generate_wampcra_challenge (e_json_dumps e1) (e_random e1) (e_now e1) sid aid arole "dynamic" = Ok text -> utf8_valid (encode_str text) = true ->
  carries c (Hello (hello_with realm authid "wampcra" (cl_extra cl) roles)) ->
  carries c (Challenge (mkChallenge "wampcra" [(VStr "challenge", VStr text)])) ->
  carries c (Authenticate (mkAuthenticate sig [])) ->
  carries c (auth_abort None) ->
  hmac_sha256 cr (encode_str my_secret) (encode_str text) <> hmac_sha256 cr (encode_str secret) (encode_str text) ->
  refused (handshake cr c (cl_authenticate cl) e1 e2 roles (joiner_with realm cl) (acceptor_init sroles true sid)).
Proof.
  intros cr c e1 e2 roles sroles sid realm authid my_secret extra aid arole secret salted text cl sig A G V C1 C2 C3 C4 N.
  exact (proj2 (e2e_wampcra cr c e1 e2 roles sroles sid realm authid my_secret extra aid arole secret salted text A G V C1 C2 C3) N C4).
Qed.
Print Assumptions C44_wrong_secret.

Definition cra_table (my_secret : string) : codec :=
  table_codec ([ex_hello "wampcra"; Challenge (mkChallenge "wampcra" [(VStr "challenge", VStr "{}")]);
                Authenticate (mkAuthenticate (sign_wampcra_challenge toy "{}" (encode_str my_secret)) [])] ++ ex_final).
Example C44_ex :
  let run s := handshake toy (cra_table s) (cl_authenticate (wampcra_client toy "joe" s None)) (ex_env true) (ex_env true) None
            (joiner_with "realm1" (wampcra_client toy "joe" s None)) (acceptor_init None true 7) in
  agreed (run "s3cret"%string) (mkDetails (PyInt 7) "realm1" (Some "joe"%string) (Some "user"%string)) /\
  refused (run "guess"%string) /\
  hmac_sha256 toy (encode_str "guess") (encode_str "{}") <> hmac_sha256 toy (encode_str "s3cret") (encode_str "{}").
Proof.
  split; [vm_compute; repeat split|]. split; [|discriminate].
  vm_compute. split; [reflexivity|]. split; eexists; reflexivity.
Qed.

(** ** C72 *)
(** The router never tells the client the salt, so a client knowing only the password signs with the password itself
    and is refused whenever that makes a difference. *)
Theorem C72_salted_refuted : forall cr c e1 e2 roles sroles sid realm authid password extra aid arole salt it kl dk text,
  let cl := wampcra_client cr authid password extra in
  let derived := decode_str (b64encode dk) in
  pbkdf2 cr (encode_str password) (encode_str salt) (VInt it) (VInt kl) = Ok dk ->
  e_auth e1 (WAMPCRARequest realm (Some authid) (Some (cl_extra cl)))
    = Accept (WAMPCRAResponse aid arole derived (Some (salt, it, kl))) ->
  generate_wampcra_challenge (e_json_dumps e1) (e_random e1) (e_now e1) sid aid arole "dynamic" = Ok text -> utf8_valid (encode_str text) = true ->
  carries c (Hello (hello_with realm authid "wampcra" (cl_extra cl) roles)) ->
  carries c (Challenge (mkChallenge "wampcra" [(VStr "challenge", VStr text)])) ->
  carries c (Authenticate (mkAuthenticate (sign_wampcra_challenge cr text (encode_str password)) [])) ->
  carries c (auth_abort None) ->
  hmac_sha256 cr (encode_str password) (encode_str text) <> hmac_sha256 cr (encode_str derived) (encode_str text) ->
  refused (handshake cr c (cl_authenticate cl) e1 e2 roles (joiner_with realm cl) (acceptor_init sroles true sid)).
Proof. exact salted_refused. Qed.
Print Assumptions C72_salted_refuted.

(** A concrete run. *)
Theorem C72_salted_witness_refuted : exists cr c e sid password salt it kl dk,
  pbkdf2 cr (encode_str password) (encode_str salt) (VInt it) (VInt kl) = Ok dk /\
  e_auth e (WAMPCRARequest "realm1" (Some "joe"%string) (Some []))
    = Accept (WAMPCRAResponse "joe" "user" (decode_str (b64encode dk)) (Some (salt, it, kl))) /\
  refused (handshake cr c (cl_authenticate (wampcra_client cr "joe" password None)) e e None
             (joiner_with "realm1" (wampcra_client cr "joe" password None)) (acceptor_init None true sid)).
Proof.
  exists toy, (cra_table "pw"),
    (mkEnv (fun _ => Accept (WAMPCRAResponse "joe" "user" (decode_str (b64encode (encode_str "pwsalt"))) (Some ("salt"%string, 1000, 32))))
       (encode_str "rnd") "2024" (fun _ => Ok (encode_str "{}"))), 7, "pw"%string, "salt"%string, 1000, 32, (encode_str "pwsalt").
  split; [reflexivity|]. split; [reflexivity|]. vm_compute. split; [reflexivity|]. split; eexists; reflexivity.
Qed.
Print Assumptions C72_salted_witness_refuted.

(** What holds: a client configured with the derived key itself is welcomed (the salt plays no role). *)
Theorem C72_derived_key_partial : forall cr c e1 e2 roles sroles sid realm authid extra aid arole salt it kl dk text,
  let derived := decode_str (b64encode dk) in
  let cl := wampcra_client cr authid derived extra in
  e_auth e1 (WAMPCRARequest realm (Some authid) (Some (cl_extra cl)))
    = Accept (WAMPCRAResponse aid arole derived (Some (salt, it, kl))) ->
  generate_wampcra_challenge (e_json_dumps e1) (e_random e1) (e_now e1) sid aid arole "dynamic" = Ok text -> utf8_valid (encode_str text) = true ->
  carries c (Hello (hello_with realm authid "wampcra" (cl_extra cl) roles)) ->
  carries c (Challenge (mkChallenge "wampcra" [(VStr "challenge", VStr text)])) ->
  carries c (Authenticate (mkAuthenticate (sign_wampcra_challenge cr text (encode_str derived)) [])) ->
  carries c (welcome_msg sroles sid aid arole None) ->
  agreed (handshake cr c (cl_authenticate cl) e1 e2 roles (joiner_with realm cl) (acceptor_init sroles true sid))
    (mkDetails (PyInt sid) realm (Some aid) (Some arole)).
Proof.
  intros cr c e1 e2 roles sroles sid realm authid extra aid arole salt it kl dk text derived cl A G V C1 C2 C3.
  exact (proj1 (e2e_wampcra cr c e1 e2 roles sroles sid realm authid derived extra aid arole derived _ text A G V C1 C2 C3) eq_refl).
Qed.
Print Assumptions C72_derived_key_partial.
