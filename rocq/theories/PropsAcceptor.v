(** * PropsAcceptor: theorems about acceptor.py (C34-C37, C40-C42, C45, C46, C74).

    [arun] feeds any list of messages, each with the router's environment at that time (what the user's authenticator
    would answer to every request, the random octets, the clock, json.dumps), to a fresh acceptor, and yields the
    acceptor and the history, newest first.  Nothing is assumed about peer, authenticator or crypto primitives. *)
From Coq Require Import String Ascii List ZArith Bool Lia.
From Verif Require Import PyBase Messages Parse Serializer Encoding EncodingFacts Auth AuthFacts Joiner Acceptor.
From Verif Require Import SpecHistory SpecAcceptor AcceptorFacts HandshakeFacts ToyCrypto.
Import ListNotations.
Local Open Scope Z_scope.

(** ** C34 *)
Theorem C34_welcome_justified : forall cr roles has_auth sid ops e msg w,
  let (a, h) := arun cr roles has_auth sid ops in
  snd (acceptor_receive_message cr e a msg) = Ok (Some (Welcome w)) ->
  (match msg with Hello _ => hello_allowed h = true | Authenticate _ => authenticate_allowed h = true | _ => False end) /\
  exists realm authid authrole, justified cr has_auth h e msg realm authid authrole /\
    we_session w = PyInt sid /\ we_authid w = Some authid /\ we_authrole w = Some authrole /\
    we_roles w = (match roles with Some r => r | None => ROUTER_ROLES end) /\
    acceptor_details (fst (acceptor_receive_message cr e a msg)) = Ok (mkDetails (PyInt sid) realm (Some authid) (Some authrole)).
Proof.
  intros. pose proof (welcome_justified _ _ _ _ _ _ (AInv_run cr roles has_auth sid ops) e msg w) as H.
  destruct (arun _ _ _ _ _). exact H.
Qed.
Print Assumptions C34_welcome_justified.

(** Conversely, those grounds suffice: an authenticated peer is welcomed. *)
Theorem C34_grounds_suffice : forall cr roles has_auth sid ops e msg realm authid authrole,
  let (a, h) := arun cr roles has_auth sid ops in
  (match msg with Hello _ => hello_allowed h = true | Authenticate _ => authenticate_allowed h = true | _ => False end) ->
  justified cr has_auth h e msg realm authid authrole ->
  exists w, snd (acceptor_receive_message cr e a msg) = Ok (Some (Welcome w)) /\
    we_session w = PyInt sid /\ we_authid w = Some authid /\ we_authrole w = Some authrole /\
    acceptor_details (fst (acceptor_receive_message cr e a msg)) = Ok (mkDetails (PyInt sid) realm (Some authid) (Some authrole)).
Proof.
  intros. pose proof (justified_welcome _ _ _ _ _ _ (AInv_run cr roles has_auth sid ops) e msg realm authid authrole) as H.
  destruct (arun _ _ _ _ _). exact H.
Qed.
Print Assumptions C34_grounds_suffice.

(** A router for the examples: tickets, and WAMP-CRA with secret "s3cret" and a fixed challenge text. *)
Definition ex_env : env :=
  mkEnv (fun r => match r with
                  | AnonymousRequest _ _ _ => Accept (PlainResponse "anon" "guest")
                  | CryptoSignRequest _ _ _ _ => Accept (PlainResponse "signer" "admin")
                  | WAMPCRARequest _ _ _ => Accept (WAMPCRAResponse "joe" "user" "s3cret" None)
                  | TicketRequest _ _ _ t => if String.eqb t "right" then Accept (PlainResponse "joe" "user") else Reject [VStr "no"]
                  end)
    (encode_str "rnd") "2024" (fun _ => Ok (encode_str "{}")).
Definition ex_hello (method : string) (extra : dict) : message := Hello (hello_with "realm1" "joe" method extra None).
Definition ex_auth (sig : string) : message := Authenticate (mkAuthenticate sig []).
Definition ex_out (method : string) (extra : dict) (sig : string) : res (option message) :=
  snd (acceptor_receive_message toy ex_env (fst (arun toy None true 7 [(ex_env, ex_hello method extra)])) (ex_auth sig)).
Definition ex_welcome (aid arole : string) (m : option string) : res (option message) := Ok (Some (welcome_msg None 7 aid arole m)).

Definition ex_seed : bytes := repeat (ascii_of_nat 7) 32.
Definition ex_pub : val := VStr (decode_str (hexlify (ed_public toy ex_seed))).
Definition ex_sig : string :=
  match sign_cryptosign_challenge toy (VStr (generate_cryptosign_challenge (e_random ex_env))) ex_seed with
  | Ok s => s | Raise _ => "" end.

Example C34_ex :
  snd (acceptor_receive_message toy ex_env (acceptor_init None true 7) (ex_hello "anonymous" []))
    = ex_welcome "anon" "guest" (Some "anonymous"%string) /\
  ex_out "ticket" [] "right" = ex_welcome "joe" "user" None /\
  ex_out "ticket" [] "wrong" = Ok (Some (auth_abort (Some [VStr "no"]))) /\
  ex_out "wampcra" [] (sign_wampcra_challenge toy "{}" (encode_str "s3cret")) = ex_welcome "joe" "user" None /\
  ex_out "wampcra" [] (sign_wampcra_challenge toy "{}" (encode_str "guess")) = Ok (Some (auth_abort None)) /\
  ex_out "cryptosign" [(VStr "pubkey", ex_pub)] ex_sig = ex_welcome "signer" "admin" None /\
  ex_out "cryptosign" [(VStr "pubkey", ex_pub)] (ex_sig ++ "01") = Ok (Some (auth_abort None)).
Proof. repeat split; vm_compute; reflexivity. Qed.

(** ** C35 *)
Theorem C35_one_welcome : forall cr roles has_auth sid ops,
  (times sent_welcome (snd (arun cr roles has_auth sid ops)) <= 1)%nat.
Proof. exact one_welcome. Qed.
Print Assumptions C35_one_welcome.

Theorem C35_after_welcome : forall cr roles has_auth sid ops,
  let (a, h) := arun cr roles has_auth sid ops in
  existsb sent_welcome h = true ->
  forall e msg, exists t, acceptor_receive_message cr e a msg = (a, Raise (ValueError [t])).
Proof.
  intros. pose proof (after_welcome _ _ _ _ _ _ (AInv_run cr roles has_auth sid ops)) as H.
  destruct (arun _ _ _ _ _). exact H.
Qed.
Print Assumptions C35_after_welcome.

Example C35_ex :
  existsb sent_welcome (snd (arun toy None true 7 [(ex_env, ex_hello "ticket" []); (ex_env, ex_auth "right")])) = true.
Proof. reflexivity. Qed.

(** ** C36 *)
Theorem C36_details_iff : forall cr roles has_auth sid ops d,
  let (a, h) := arun cr roles has_auth sid ops in
  acceptor_details a = Ok d <->
  exists realm w, established h = Some (realm, w) /\ d = mkDetails (we_session w) realm (we_authid w) (we_authrole w).
Proof.
  intros. pose proof (details_established cr roles has_auth sid ops) as H.
  destruct (arun cr roles has_auth sid ops) as [a h]. cbn [fst snd] in H. unfold acceptor_details. rewrite H.
  destruct (established h) as [[re w]|]; cbn; split.
  - intros X. injection X as <-. eauto.
  - intros (re' & w' & X & ->). injection X as -> ->. reflexivity.
  - discriminate.
  - intros (re' & w' & X & _). discriminate.
Qed.
Print Assumptions C36_details_iff.

(** [established] holds exactly when a WELCOME was sent. *)
Theorem C36_established_iff : forall cr roles has_auth sid ops,
  let h := snd (arun cr roles has_auth sid ops) in
  (exists p, established h = Some p) <-> existsb sent_welcome h = true.
Proof. exact established_iff. Qed.
Print Assumptions C36_established_iff.

Theorem C36_no_details : forall cr roles has_auth sid ops,
  let (a, h) := arun cr roles has_auth sid ops in
  existsb sent_welcome h = false -> exists t, acceptor_details a = Raise (ValueError [t]).
Proof.
  intros. pose proof (details_none cr roles has_auth sid ops) as H. destruct (arun _ _ _ _ _). exact H.
Qed.
Print Assumptions C36_no_details.

Example C36_ex :
  let (a, h) := arun toy None true 7 [(ex_env, ex_hello "wampcra" []);
                                      (ex_env, ex_auth (sign_wampcra_challenge toy "{}" (encode_str "s3cret")))] in
  acceptor_details a = Ok (mkDetails (PyInt 7) "realm1" (Some "joe"%string) (Some "user"%string)).
Proof. vm_compute. reflexivity. Qed.

(** ** C37 *)
Theorem C37_hello_order : forall cr roles has_auth sid ops,
  let (a, h) := arun cr roles has_auth sid ops in
  hello_allowed h = false ->
  forall e m, exists t, acceptor_receive_message cr e a (Hello m) = (a, Raise (ValueError [t])).
Proof.
  intros. pose proof (order_hello _ _ _ _ _ _ (AInv_run cr roles has_auth sid ops)) as H.
  destruct (arun _ _ _ _ _). exact H.
Qed.
Print Assumptions C37_hello_order.

Theorem C37_authenticate_order : forall cr roles has_auth sid ops,
  let (a, h) := arun cr roles has_auth sid ops in
  authenticate_allowed h = false ->
  forall e m, exists t, acceptor_receive_message cr e a (Authenticate m) = (a, Raise (ValueError [t])).
Proof.
  intros. pose proof (order_authenticate _ _ _ _ _ _ (AInv_run cr roles has_auth sid ops)) as H.
  destruct (arun _ _ _ _ _). exact H.
Qed.
Print Assumptions C37_authenticate_order.

(** When a HELLO is allowed, its reply follows from the authenticator alone. *)
Theorem C37_hello_reply : forall cr roles sid ops e m,
  let (a, h) := arun cr roles true sid ops in
  hello_allowed h = true ->
  let out := snd (acceptor_receive_message cr e a (Hello m)) in
  (first_method m = VStr "ticket" -> out = Ok (Some (Challenge (mkChallenge "ticket" [])))) /\
  (first_method m = VStr "anonymous" -> forall args,
     e_auth e (AnonymousRequest (he_realm m) (he_authid m) (he_authextra m)) = Reject args ->
     out = Ok (Some (auth_abort (Some args)))) /\
  (first_method m = VStr "wampcra" ->
     (forall args, e_auth e (WAMPCRARequest (he_realm m) (he_authid m) (he_authextra m)) = Reject args ->
        out = Ok (Some (auth_abort (Some args)))) /\
     (forall aid arole secret salted text,
        e_auth e (WAMPCRARequest (he_realm m) (he_authid m) (he_authextra m)) = Accept (WAMPCRAResponse aid arole secret salted) ->
        generate_wampcra_challenge (e_json_dumps e) (e_random e) (e_now e) sid aid arole "dynamic" = Ok text ->
        out = Ok (Some (Challenge (mkChallenge "wampcra" [(VStr "challenge", VStr text)]))))) /\
  (first_method m = VStr "cryptosign" -> forall extra, he_authextra m = Some extra ->
     (forall k args, sget "pubkey" extra = Some k -> k <> VNone ->
        e_auth e (CryptoSignRequest (he_realm m) (he_authid m) (he_authextra m) k) = Reject args ->
        out = Ok (Some (auth_abort (Some args)))) /\
     (forall k r, sget "pubkey" extra = Some k -> k <> VNone ->
        e_auth e (CryptoSignRequest (he_realm m) (he_authid m) (he_authextra m) k) = Accept r ->
        out = Ok (Some (Challenge (mkChallenge "cryptosign" [(VStr "challenge", VStr (decode_str (hexlify (e_random e))))])))) /\
     (sget "pubkey" extra = None -> exists t, out = Raise (ValueError [t]))) /\
  ((forall s, In s ["anonymous"; "ticket"; "wampcra"; "cryptosign"]%string -> first_method m <> VStr s) ->
     exists t, out = Raise (ValueError [t])).
Proof.
  intros. pose proof (hello_reply _ _ _ _ _ (AInv_run cr roles true sid ops) e m) as H.
  destruct (arun _ _ _ _ _). exact H.
Qed.
Print Assumptions C37_hello_reply.

Example C37_ex :
  hello_allowed (snd (arun toy None true 7 [(ex_env, ex_hello "ticket" [])])) = false /\
  authenticate_allowed (snd (arun toy None true 7 [(ex_env, ex_hello "ticket" [])])) = true /\
  authenticate_allowed (snd (arun toy None true 7 [])) = false /\
  hello_allowed (snd (arun toy None true 7 [(ex_env, ex_auth "x"); (ex_env, ex_hello "foo" [])])) = true.
Proof. repeat split. Qed.

(** ** C40 *)
(** Cryptosign: an AUTHENTICATE made for the random challenge [recorded] of some other handshake is accepted in a
    handshake whose challenge was made from the octets [e_random e1]; the two are arbitrary. *)
Theorem C40_cryptosign_replay_refuted : forall cr seed recorded sroles sid e1 e2 realm authid extra roles r s,
  ed25519_correct cr -> length seed = 32%nat ->
  sget "pubkey" extra = Some (VStr (decode_str (hexlify (ed_public cr seed)))) ->
  e_auth e1 (CryptoSignRequest realm (Some authid) (Some extra) (VStr (decode_str (hexlify (ed_public cr seed))))) = Accept r ->
  sign_cryptosign_challenge cr (VStr (generate_cryptosign_challenge recorded)) seed = Ok s ->
  let (a, h) := arun cr sroles true sid [(e1, Hello (hello_with realm authid "cryptosign" extra roles))] in
  exists w, snd (acceptor_receive_message cr e2 a (Authenticate (mkAuthenticate s []))) = Ok (Some (Welcome w)) /\
    we_authid w = Some (resp_authid r) /\ we_authrole w = Some (resp_authrole r).
Proof. exact cs_replay. Qed.
Print Assumptions C40_cryptosign_replay_refuted.

Example C40_ex : exists s,
  sign_cryptosign_challenge toy (VStr (generate_cryptosign_challenge (encode_str "old"))) ex_seed = Ok s /\
  generate_cryptosign_challenge (encode_str "old") <> generate_cryptosign_challenge (e_random ex_env) /\
  ex_out "cryptosign" [(VStr "pubkey", ex_pub)] s = ex_welcome "signer" "admin" None.
Proof.
  eexists. split; [vm_compute; reflexivity|]. split; [vm_compute; intros H; discriminate H|vm_compute; reflexivity].
Qed.

(** WAMP-CRA is bound to the challenge text of this handshake.  Missing: cryptosign. *)
Theorem C40_wampcra_bound_partial : forall cr roles has_auth sid ops e m w e0 m0 c0,
  let (a, h) := arun cr roles has_auth sid ops in
  latest challenge_of h = Some (e0, m0, c0) -> first_method m0 = VStr "wampcra" ->
  snd (acceptor_receive_message cr e a (Authenticate m)) = Ok (Some (Welcome w)) ->
  exists authid authrole secret salted text,
    e_auth e0 (WAMPCRARequest (he_realm m0) (he_authid m0) (he_authextra m0)) = Accept (WAMPCRAResponse authid authrole secret salted) /\
    ch_extra c0 = [(VStr "challenge", VStr text)] /\
    generate_wampcra_challenge (e_json_dumps e0) (e_random e0) (e_now e0) sid authid authrole "dynamic" = Ok text /\
    b64decode_str (au_signature m) = Ok (hmac_sha256 cr (encode_str secret) (encode_str text)).
Proof.
  intros. pose proof (fun a h I => cra_bound cr roles has_auth sid a h e m w e0 m0 c0 I) as H.
  specialize (H _ _ (AInv_run cr roles has_auth sid ops)). destruct (arun _ _ _ _ _). exact H.
Qed.
Print Assumptions C40_wampcra_bound_partial.

(** ** C41 *)
Theorem C41_abort_final_refuted : exists cr roles sid ops e msg,
  let (a, h) := arun cr roles true sid ops in
  existsb sent_abort h = true /\ is_aborted a = false /\
  exists w, snd (acceptor_receive_message cr e a msg) = Ok (Some (Welcome w)).
Proof. exact abort_not_final_ticket. Qed.
Print Assumptions C41_abort_final_refuted.

(** Any number of wrong tickets, each answered by ABORT, may precede the right one. *)
Theorem C41_ticket_guessing_refuted : forall cr roles sid n,
  let wrong := Authenticate (mkAuthenticate "wrong" []) in
  let a := fst (arun cr roles true sid ((ticket_env "right", ticket_hello) :: repeat (ticket_env "right", wrong) n)) in
  exists w, snd (acceptor_receive_message cr (ticket_env "right") a (Authenticate (mkAuthenticate "right" []))) = Ok (Some (Welcome w)).
Proof. exact ticket_guessing. Qed.
Print Assumptions C41_ticket_guessing_refuted.

(** What holds: a failed signature, and the peer's own ABORT, are final.  Missing: ABORTs sent because the
    authenticator raised. *)
Theorem C41_signature_failure_final_partial : forall cr roles has_auth sid ops,
  let (a, h) := arun cr roles has_auth sid ops in
  existsb peer_aborted h || signature_failed h = true ->
  is_aborted a = true /\
  (forall e m, exists t, acceptor_receive_message cr e a (Hello m) = (a, Raise (ValueError [t]))) /\
  (forall e m, exists t, acceptor_receive_message cr e a (Authenticate m) = (a, Raise (ValueError [t]))).
Proof.
  intros. pose proof (aborted_iff _ _ _ _ _ _ (AInv_run cr roles has_auth sid ops)) as H1.
  pose proof (aborted_final _ _ _ _ _ _ (AInv_run cr roles has_auth sid ops)) as H2.
  destruct (arun _ _ _ _ _). cbn [fst snd] in *. intros X. split; [rewrite H1; exact X|exact (H2 X)].
Qed.
Print Assumptions C41_signature_failure_final_partial.

Theorem C41_is_aborted_iff : forall cr roles has_auth sid ops,
  let (a, h) := arun cr roles has_auth sid ops in
  is_aborted a = existsb peer_aborted h || signature_failed h.
Proof.
  intros. pose proof (aborted_iff _ _ _ _ _ _ (AInv_run cr roles has_auth sid ops)) as H.
  destruct (arun _ _ _ _ _). exact H.
Qed.
Print Assumptions C41_is_aborted_iff.

Example C41_ex :
  signature_failed (snd (arun toy None true 7 [(ex_env, ex_hello "wampcra" []); (ex_env, ex_auth "AAAA")])) = true.
Proof. reflexivity. Qed.

(** ** C42 *)
Theorem C42_bad_hex_refuted : forall cr roles sid e1 e2 k pub r,
  e_auth e1 (CryptoSignRequest "realm1" (Some "joe"%string) (Some [(VStr "pubkey", k)]) k) = Accept r ->
  unhexlify k = Ok pub -> length pub = 32%nat ->
  let (a, h) := arun cr roles true sid [(e1, Hello (hello_with "realm1" "joe" "cryptosign" [(VStr "pubkey", k)] None))] in
  authenticate_allowed h = true /\
  exists t, snd (acceptor_receive_message cr e2 a (Authenticate (mkAuthenticate "zz" []))) = Raise (BinasciiError t).
Proof. exact bad_hex_raises. Qed.
Print Assumptions C42_bad_hex_refuted.

Theorem C42_bad_pubkey_refuted : forall cr roles sid e1 e2 r sig,
  e_auth e1 (CryptoSignRequest "realm1" (Some "joe"%string) (Some [(VStr "pubkey", VStr "zz")]) (VStr "zz")) = Accept r ->
  let (a, h) := arun cr roles true sid [(e1, Hello (hello_with "realm1" "joe" "cryptosign" [(VStr "pubkey", VStr "zz")] None))] in
  authenticate_allowed h = true /\
  exists t, snd (acceptor_receive_message cr e2 a (Authenticate (mkAuthenticate sig []))) = Raise (BinasciiError t).
Proof. exact bad_pubkey_raises. Qed.
Print Assumptions C42_bad_pubkey_refuted.

Theorem C42_non_ascii_refuted : forall cr roles sid e1 e2 aid arole secret salted text,
  e_auth e1 (WAMPCRARequest "realm1" (Some "joe"%string) (Some [])) = Accept (WAMPCRAResponse aid arole secret salted) ->
  generate_wampcra_challenge (e_json_dumps e1) (e_random e1) (e_now e1) sid aid arole "dynamic" = Ok text ->
  let (a, h) := arun cr roles true sid [(e1, Hello (hello_with "realm1" "joe" "wampcra" [] None))] in
  authenticate_allowed h = true /\
  exists t, snd (acceptor_receive_message cr e2 a (Authenticate (mkAuthenticate "é" []))) = Raise (ValueError t).
Proof. exact non_ascii_raises. Qed.
Print Assumptions C42_non_ascii_refuted.

(** Missing: WAMP-CRA signatures that are not ASCII; cryptosign signatures or keys that are not hex of the right size. *)
Theorem C42_answered_partial : forall cr roles has_auth sid ops e m e0 m0 c0,
  let (a, h) := arun cr roles has_auth sid ops in
  authenticate_allowed h = true -> latest challenge_of h = Some (e0, m0, c0) ->
  let out := snd (acceptor_receive_message cr e a (Authenticate m)) in
  (ch_method c0 = "ticket"%string -> answered out) /\
  (ch_method c0 = "wampcra"%string -> is_ascii (encode_str (au_signature m)) = true -> answered out) /\
  (ch_method c0 = "cryptosign"%string -> forall extra k pub sig, he_authextra m0 = Some extra ->
     sget "pubkey" extra = Some k -> unhexlify k = Ok pub -> length pub = 32%nat ->
     unhexlify_str (au_signature m) = Ok sig -> answered out).
Proof.
  intros. pose proof (fun a h I => authenticate_answered cr roles has_auth sid a h e m e0 m0 c0 I) as H.
  specialize (H _ _ (AInv_run cr roles has_auth sid ops)). destruct (arun _ _ _ _ _). exact H.
Qed.
Print Assumptions C42_answered_partial.

(** Those are the only methods, and there always is such a CHALLENGE. *)
Theorem C42_challenge_methods : forall cr roles has_auth sid ops,
  let h := snd (arun cr roles has_auth sid ops) in
  authenticate_allowed h = true ->
  exists e0 m0 c0, latest challenge_of h = Some (e0, m0, c0) /\
    (ch_method c0 = "ticket"%string \/ ch_method c0 = "wampcra"%string \/ ch_method c0 = "cryptosign"%string).
Proof. exact challenge_exists. Qed.
Print Assumptions C42_challenge_methods.

Example C42_ex : exists m0 c0,
  latest challenge_of (snd (arun toy None true 7 [(ex_env, ex_hello "cryptosign" [(VStr "pubkey", ex_pub)])])) = Some (ex_env, m0, c0) /\
  ch_method c0 = "cryptosign"%string /\ unhexlify ex_pub = Ok (ed_public toy ex_seed) /\ length (ed_public toy ex_seed) = 32%nat.
Proof. eexists. eexists. split; [vm_compute; reflexivity|]. repeat split; vm_compute; reflexivity. Qed.

(** ** C45 *)
Theorem C45_receive_done : forall cr c e a data bs done a', acceptor_receive cr c e a data = (a', Ok (bs, done)) ->
  exists m reply, deserialize c data = Ok m /\ acceptor_receive_message cr e a m = (a', Ok (Some reply)) /\
    serialize c reply = Ok bs /\
    (done = true <-> (exists w, reply = Welcome w) \/ (exists ab, reply = Abort ab)).
Proof. exact receive_done. Qed.
Print Assumptions C45_receive_done.

Theorem C45_receive_replies : forall cr c e a data m a' reply bs,
  deserialize c data = Ok m -> acceptor_receive_message cr e a m = (a', Ok (Some reply)) -> serialize c reply = Ok bs ->
  exists done, acceptor_receive cr c e a data = (a', Ok (bs, done)).
Proof. exact receive_replies. Qed.
Print Assumptions C45_receive_replies.

Definition hello_codec : codec :=
  mkCodec (fun _ => Ok ["r"%char]) (fun _ => Ok (VList (marshal (ex_hello "ticket" [])))).
Example C45_ex :
  snd (acceptor_receive toy hello_codec ex_env (acceptor_init None true 7) []) = Ok (["r"%char], false) /\
  snd (acceptor_receive toy hello_codec ex_env (acceptor_init None false 7) []) = Ok (["r"%char], true).
Proof. split; vm_compute; reflexivity. Qed.

(** ** C46 *)
Theorem C46_abort_raises_refuted : forall cr roles has_auth sid ops c e data ab,
  let (a, h) := arun cr roles has_auth sid ops in
  existsb sent_welcome h = false -> deserialize c data = Ok (Abort ab) ->
  exists t, snd (acceptor_receive cr c e a data) = Raise (AttributeError t).
Proof.
  intros. pose proof (receive_abort_marks cr roles has_auth sid ops c e data ab) as H.
  destruct (arun _ _ _ _ _). intros X Y. exact (proj2 (proj2 (H X Y))).
Qed.
Print Assumptions C46_abort_raises_refuted.

(** What holds: the acceptor is marked aborted, and receive_message (without bytes) returns None. *)
Theorem C46_abort_marks_partial : forall cr roles has_auth sid ops c e data ab,
  let (a, h) := arun cr roles has_auth sid ops in
  existsb sent_welcome h = false -> deserialize c data = Ok (Abort ab) ->
  is_aborted (fst (acceptor_receive cr c e a data)) = true /\
  acceptor_receive_message cr e a (Abort ab) = (fst (acceptor_receive cr c e a data), Ok None).
Proof.
  intros. pose proof (receive_abort_marks cr roles has_auth sid ops c e data ab) as H.
  destruct (arun _ _ _ _ _). intros X Y. destruct (H X Y) as (? & ? & _). auto.
Qed.
Print Assumptions C46_abort_marks_partial.

Example C46_ex :
  let c := mkCodec (fun _ => Ok []) (fun _ => Ok (VList [VInt 3; VDict []; VStr "wamp.close.normal"])) in
  existsb sent_welcome (snd (arun toy None true 7 [(ex_env, ex_hello "ticket" [])])) = false /\
  deserialize c [] = Ok (Abort (mkAbort [] "wamp.close.normal" None None)).
Proof. split; reflexivity. Qed.

(** ** C74 *)
Theorem C74_one_challenge : forall cr roles has_auth sid ops,
  (times sent_challenge (snd (arun cr roles has_auth sid ops)) <= 1)%nat.
Proof. exact one_challenge. Qed.
Print Assumptions C74_one_challenge.
