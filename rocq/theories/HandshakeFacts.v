(** * HandshakeFacts: lemmas for C40-C46, C72 and the end-to-end handshakes C43, C44. *)
From Coq Require Import String Ascii List ZArith Bool Lia.
From Verif Require Import PyBase Messages Parse Serializer SpecSchema RoundTripFacts SerializerFacts.
From Verif Require Import Encoding EncodingFacts Utf8 Auth AuthFacts Joiner Acceptor SpecHistory SpecAcceptor AcceptorFacts Handshake.
Import ListNotations.
Local Open Scope Z_scope.

(** ** Acceptor.receive *)
Lemma receive_done cr c e a data bs done a' : acceptor_receive cr c e a data = (a', Ok (bs, done)) ->
  exists m reply, deserialize c data = Ok m /\ acceptor_receive_message cr e a m = (a', Ok (Some reply)) /\
    serialize c reply = Ok bs /\
    (done = true <-> (exists w, reply = Welcome w) \/ (exists ab, reply = Abort ab)).
Proof.
  unfold acceptor_receive. destruct (deserialize c data) as [m|]; [|discriminate].
  destruct (acceptor_receive_message cr e a m) as [a1 r] eqn:E. intros H. injection H as <- H.
  destruct r as [[reply|]|]; cbn [bind] in H; try discriminate.
  destruct (serialize c reply) as [b|] eqn:S; cbn [bind] in H; [|discriminate]. injection H as <- <-.
  exists m, reply. rewrite E. repeat split; try assumption.
  - destruct reply; cbn; intros F; try discriminate; [left|right]; eexists; reflexivity.
  - intros [[w ->]|[ab ->]]; reflexivity.
Qed.

Lemma receive_reply cr c e a data m a' reply bs :
  deserialize c data = Ok m -> acceptor_receive_message cr e a m = (a', Ok (Some reply)) -> serialize c reply = Ok bs ->
  acceptor_receive cr c e a data = (a', Ok (bs, final_reply reply)).
Proof. intros H1 H2 H3. unfold acceptor_receive. rewrite H1, H2. cbn [bind]. rewrite H3. reflexivity. Qed.

Lemma receive_abort_raises cr c e a data ab : a_state a <> A_WELCOME_SENT -> deserialize c data = Ok (Abort ab) ->
  exists t, snd (acceptor_receive cr c e a data) = Raise (AttributeError t).
Proof.
  intros S H. unfold acceptor_receive. rewrite H. unfold acceptor_receive_message.
  destruct (a_state a); try contradiction; eexists; reflexivity.
Qed.

Lemma receive_abort_marks cr roles ha sid ops c e data ab :
  existsb sent_welcome (snd (arun cr roles ha sid ops)) = false -> deserialize c data = Ok (Abort ab) ->
  is_aborted (fst (acceptor_receive cr c e (fst (arun cr roles ha sid ops)) data)) = true /\
  acceptor_receive_message cr e (fst (arun cr roles ha sid ops)) (Abort ab) =
    (fst (acceptor_receive cr c e (fst (arun cr roles ha sid ops)) data), Ok None) /\
  exists t, snd (acceptor_receive cr c e (fst (arun cr roles ha sid ops)) data) = Raise (AttributeError t).
Proof.
  intros W H. pose proof (state_of_history _ _ _ _ _ _ (AInv_run cr roles ha sid ops)) as (_ & _ & (_ & S) & _).
  destruct (arun cr roles ha sid ops) as [a h]. cbn [fst snd] in *.
  unfold acceptor_receive. rewrite H. unfold acceptor_receive_message.
  destruct (a_state a); try (split; [reflexivity|]; split; [reflexivity|]; eexists; reflexivity).
  rewrite (S eq_refl) in W. discriminate.
Qed.

(** ** AUTHENTICATE is answered (C42) *)
Definition answered (r : res (option message)) : Prop :=
  exists m, r = Ok (Some m) /\ ((exists w, m = Welcome w) \/ (exists ab, m = Abort ab)).
Lemma answered_welcome w : answered (Ok (Some (Welcome w))).
Proof. eexists. split; [reflexivity|]. left. eauto. Qed.
Lemma answered_abort args : answered (Ok (Some (auth_abort args))).
Proof. eexists. split; [reflexivity|]. right. eexists. reflexivity. Qed.

Lemma authenticate_answered cr roles ha sid a h e m e0 m0 c0 :
  AInv cr roles ha sid a h -> authenticate_allowed h = true -> latest challenge_of h = Some (e0, m0, c0) ->
  (ch_method c0 = "ticket"%string -> answered (snd (acceptor_receive_message cr e a (Authenticate m)))) /\
  (ch_method c0 = "wampcra"%string -> is_ascii (encode_str (au_signature m)) = true ->
     answered (snd (acceptor_receive_message cr e a (Authenticate m)))) /\
  (ch_method c0 = "cryptosign"%string -> forall extra k pub sig, he_authextra m0 = Some extra ->
     sget "pubkey" extra = Some k -> unhexlify k = Ok pub -> length pub = 32%nat ->
     unhexlify_str (au_signature m) = Ok sig ->
     answered (snd (acceptor_receive_message cr e a (Authenticate m)))).
Proof.
  intros I A L. destruct (state_of_history _ _ _ _ _ _ I) as (_ & (S & _) & _). specialize (S A).
  destruct (ai_mem _ _ _ _ _ _ I S) as (e1 & m1 & c1 & L1 & R). rewrite L in L1. injection L1 as <- <- <-.
  unfold acceptor_receive_message, receive_authenticate. rewrite S.
  destruct R as [e0 m0 c0 extra' k' r' M1 M2 M3 M4 M5 M6 M7 M8 M9 M10
               | e0 m0 c0 authid authrole secret salted text M1 M2 M3 M4 M5 M6 M7 M8 M9 M10
               | e0 m0 c0 M1 M2 M3 M4 M5];
    (split; [|split]); intros C; try congruence; rewrite M1; cbn [is_method String.eqb Ascii.eqb Bool.eqb].
  - intros extra k pub sig X1 X2 X3 X4 X5. assert (extra' = extra) by congruence. subst extra'.
    assert (k' = k) by congruence. subst k'. rewrite M7, X3. cbn [bind].
    unfold verify_cryptosign_signature. rewrite X4, X5. cbn [Nat.eqb bind]. rewrite M9, M4.
    destruct (length sig <? 64)%nat; [apply answered_abort|].
    destruct (ed_verify _ _ _ _); [apply answered_welcome|apply answered_abort].
  - intros X. rewrite M7, M8, M6, M4.
    destruct (proj1 (cra_verify_total cr (au_signature m) text (encode_str secret)) X) as [b ->].
    destruct b; [apply answered_welcome|apply answered_abort].
  - rewrite M4. destruct (e_auth e _); [apply answered_welcome|apply answered_abort].
Qed.

(** A CHALLENGE is in one of three methods. *)
Lemma challenge_methods cr roles ha sid a h e0 m0 c0 :
  AInv cr roles ha sid a h -> authenticate_allowed h = true -> latest challenge_of h = Some (e0, m0, c0) ->
  ch_method c0 = "ticket"%string \/ ch_method c0 = "wampcra"%string \/ ch_method c0 = "cryptosign"%string.
Proof.
  intros I A L. destruct (state_of_history _ _ _ _ _ _ I) as (_ & (S & _) & _). specialize (S A).
  destruct (ai_mem _ _ _ _ _ _ I S) as (e1 & m1 & c1 & L1 & R). rewrite L in L1. injection L1 as <- <- <-.
  destruct R; auto.
Qed.

(** ** The three CHALLENGEs *)
Definition hello_with (realm authid method : string) (extra : dict) (roles : option dict) : hello :=
  mkHello realm (match roles with Some r => r | None => CLIENT_ROLES end) (Some authid) (Some [VStr method]) (Some extra).

Lemma fresh_cryptosign cr sroles sid e realm authid extra roles k r :
  sget "pubkey" extra = Some k -> k <> VNone ->
  e_auth e (CryptoSignRequest realm (Some authid) (Some extra) k) = Accept r ->
  snd (acceptor_receive_message cr e (acceptor_init sroles true sid) (Hello (hello_with realm authid "cryptosign" extra roles))) =
  Ok (Some (Challenge (mkChallenge "cryptosign" [(VStr "challenge", VStr (generate_cryptosign_challenge (e_random e)))]))).
Proof.
  intros H1 H2 H3. cbn. unfold receive_hello. cbn. unfold sget_default. rewrite H1.
  destruct k; try contradiction; rewrite H3; reflexivity.
Qed.

Lemma fresh_wampcra cr sroles sid e realm authid extra roles aid arole secret salted text :
  e_auth e (WAMPCRARequest realm (Some authid) (Some extra)) = Accept (WAMPCRAResponse aid arole secret salted) ->
  generate_wampcra_challenge (e_json_dumps e) (e_random e) (e_now e) sid aid arole "dynamic" = Ok text ->
  snd (acceptor_receive_message cr e (acceptor_init sroles true sid) (Hello (hello_with realm authid "wampcra" extra roles))) =
  Ok (Some (Challenge (mkChallenge "wampcra" [(VStr "challenge", VStr text)]))).
Proof. intros H1 H2. cbn. unfold receive_hello. cbn. rewrite H1, H2. reflexivity. Qed.

(** ** C40: a cryptosign AUTHENTICATE recorded elsewhere is accepted. *)
Lemma cs_replay cr seed recorded sroles sid e1 e2 realm authid extra roles r s :
  ed25519_correct cr -> length seed = 32%nat ->
  sget "pubkey" extra = Some (VStr (decode_str (hexlify (ed_public cr seed)))) ->
  e_auth e1 (CryptoSignRequest realm (Some authid) (Some extra) (VStr (decode_str (hexlify (ed_public cr seed))))) = Accept r ->
  sign_cryptosign_challenge cr (VStr (generate_cryptosign_challenge recorded)) seed = Ok s ->
  let (a, h) := arun cr sroles true sid [(e1, Hello (hello_with realm authid "cryptosign" extra roles))] in
  exists w, snd (acceptor_receive_message cr e2 a (Authenticate (mkAuthenticate s []))) = Ok (Some (Welcome w)) /\
    we_authid w = Some (resp_authid r) /\ we_authrole w = Some (resp_authrole r).
Proof.
  intros C L P A Sg. set (hm := hello_with realm authid "cryptosign" extra roles).
  assert (F := fresh_cryptosign cr sroles sid e1 realm authid extra roles _ r P ltac:(discriminate) A). fold hm in F.
  pose proof (AInv_run cr sroles true sid [(e1, Hello hm)]) as I.
  unfold arun, astep in *. cbn [fold_left] in *. cbn [fst snd] in *.
  destruct (acceptor_receive_message cr e1 (acceptor_init sroles true sid) (Hello hm)) as [a r1].
  cbn [fst snd] in *. subst r1.
  destruct (justified_welcome cr sroles true sid a _ I e2 (Authenticate (mkAuthenticate s [])) realm (resp_authid r) (resp_authrole r))
    as (w & W1 & W2 & W3 & W4 & _).
  - reflexivity.
  - change realm with (he_realm hm).
    eapply (J_cryptosign cr true _ e2 e1 hm); try reflexivity; try eassumption.
    + apply unhexlify_hexlify.
    + unfold sign_cryptosign_challenge in Sg. cbn [unhexlify] in Sg. rewrite cs_generated in Sg. cbn [bind] in Sg.
      injection Sg as <-. destruct (C seed recorded L) as (C1 & C2 & C3). split; [exact C1|].
      exists (ed_sign cr seed recorded). split; [exact C2|]. split; [|exact C3]. cbn [au_signature].
      apply unhexlify_str_app; [apply unhexlify_hexlify|apply cs_generated].
  - exists w. auto.
Qed.

(** WAMP-CRA is bound to the challenge. *)
Lemma cra_bound cr roles ha sid a h e m w e0 m0 c0 :
  AInv cr roles ha sid a h -> latest challenge_of h = Some (e0, m0, c0) -> first_method m0 = VStr "wampcra" ->
  snd (acceptor_receive_message cr e a (Authenticate m)) = Ok (Some (Welcome w)) ->
  exists authid authrole secret salted text,
    e_auth e0 (WAMPCRARequest (he_realm m0) (he_authid m0) (he_authextra m0)) = Accept (WAMPCRAResponse authid authrole secret salted) /\
    ch_extra c0 = [(VStr "challenge", VStr text)] /\
    generate_wampcra_challenge (e_json_dumps e0) (e_random e0) (e_now e0) sid authid authrole "dynamic" = Ok text /\
    b64decode_str (au_signature m) = Ok (hmac_sha256 cr (encode_str secret) (encode_str text)).
Proof.
  intros I L F H. destruct (state_of_history _ _ _ _ _ _ I) as (_ & (S & _) & _).
  destruct (welcome_justified _ _ _ _ _ _ I e _ w H) as (A & realm & ai & ar & J & _). specialize (S A).
  destruct (ai_mem _ _ _ _ _ _ I S) as (e1 & m1 & c1 & L1 & R). rewrite L in L1. injection L1 as <- <- <-.
  destruct R as [e0 m0 c0 extra' k' r' M1 M2 M3 M4 M5 M6 M7 M8 M9 M10
               | e0 m0 c0 authid authrole secret salted text M1 M2 M3 M4 M5 M6 M7 M8 M9 M10
               | e0 m0 c0 M1 M2 M3 M4 M5]; try congruence.
  exists authid, authrole, secret, salted, text. split; [exact M5|]. split; [exact M9|].
  destruct (ai_attrs _ _ _ _ _ _ I) as (_ & <- & _). split; [exact M10|].
  inversion J as [|?|?|? ? ? ? ? ? secret' salted' text' J1 J2 J3 J4 J5 J6|?]; subst; try congruence.
  rewrite L in J2. injection J2 as <- <- <-. rewrite M5 in J4. injection J4 as <- <- <- <-.
  rewrite M9 in J5. cbn in J5. injection J5 as <-. exact J6.
Qed.

(** ** End to end *)
Definition carries (c : codec) (m : message) : Prop := wf_message m /\ codec_round_trips c (VList (marshal m)).

Lemma carried c m : carries c m -> exists b, serialize c m = Ok b /\ deserialize c b = Ok (normalise m).
Proof. intros [W R]. apply serializer_round_trip; assumption. Qed.

Lemma receive_carried cr c e a m b a' reply :
  deserialize c b = Ok m -> acceptor_receive_message cr e a m = (a', Ok (Some reply)) -> carries c reply ->
  exists b2, acceptor_receive cr c e a b = (a', Ok (b2, final_reply reply)) /\ deserialize c b2 = Ok (normalise reply).
Proof.
  intros H1 H2 H3. destruct (carried c reply H3) as (b2 & S & D). exists b2. split; [|exact D].
  eapply receive_reply; eassumption.
Qed.

Definition welcome_msg (sroles : option dict) (sid : Z) (aid arole : string) (method : option string) : message :=
  Welcome (mkWelcome (PyInt sid) (match sroles with Some r => r | None => ROUTER_ROLES end) (Some aid) (Some arole) method []).

(** Two-message handshake: HELLO is answered directly. *)
Lemma handshake_direct cr c authn e1 e2 roles realm method authid extra a a' aid arole m sid sroles :
  carries c (Hello (hello_with realm authid method extra roles)) ->
  acceptor_receive_message cr e1 a (Hello (hello_with realm authid method extra roles)) =
    (a', Ok (Some (welcome_msg sroles sid aid arole m))) ->
  carries c (welcome_msg sroles sid aid arole m) ->
  exists j', handshake cr c authn e1 e2 roles (joiner_init realm method authid extra) a = (j', a', Ok tt) /\
    joiner_details j' = Ok (mkDetails (PyInt sid) realm (Some aid) (Some arole)).
Proof.
  intros C1 R C2. destruct (carried _ _ C1) as (b1 & S1 & D1). cbn [normalise] in D1.
  destruct (receive_carried cr c e1 a _ b1 a' _ D1 R C2) as (b2 & R2 & D2).
  unfold handshake, send_hello, joiner_hello, joiner_init. cbn [j_realm j_method j_authid j_extra].
  fold (hello_with realm authid method extra roles). rewrite S1, R2.
  unfold joiner_receive. rewrite D2. unfold welcome_msg. cbn. eexists. split; [reflexivity|]. reflexivity.
Qed.

(** Four-message handshake up to the router's final reply. *)
Lemma handshake_challenged cr c authn e1 e2 roles realm method authid extra a a1 a2 ch au reply :
  carries c (Hello (hello_with realm authid method extra roles)) ->
  acceptor_receive_message cr e1 a (Hello (hello_with realm authid method extra roles)) = (a1, Ok (Some (Challenge ch))) ->
  carries c (Challenge ch) -> authn ch = Ok au -> carries c (Authenticate au) ->
  acceptor_receive_message cr e2 a1 (Authenticate au) = (a2, Ok (Some reply)) ->
  carries c reply ->
  exists j2, handshake cr c authn e1 e2 roles (joiner_init realm method authid extra) a =
    (fst (joiner_receive_message authn j2 (normalise reply)), a2,
     match snd (joiner_receive_message authn j2 (normalise reply)) with
     | Ok None => Ok tt
     | Ok (Some m) => match (let! b := serialize c m in Ok (Some b)) with Ok _ => Ok tt | Raise x => Raise x end
     | Raise x => Raise x
     end) /\
    j_state j2 = J_AUTHENTICATE_SENT /\ j_details j2 = None /\ j_realm j2 = realm.
Proof.
  intros C1 R1 C2 AU C3 R2 C4. destruct (carried _ _ C1) as (b1 & S1 & D1). cbn [normalise] in D1.
  destruct (receive_carried cr c e1 a _ b1 a1 _ D1 R1 C2) as (b2 & RR1 & D2). cbn [normalise] in D2.
  destruct (carried _ _ C3) as (b3 & S3 & D3). cbn [normalise] in D3.
  destruct (receive_carried cr c e2 a1 _ b3 a2 _ D3 R2 C4) as (b4 & RR2 & D4).
  exists (set_jstate (set_jstate (joiner_init realm method authid extra) J_HELLO_SENT) J_AUTHENTICATE_SENT).
  split; [|repeat split].
  unfold handshake, send_hello, joiner_hello. cbn [joiner_init j_realm j_method j_authid j_extra].
  fold (hello_with realm authid method extra roles). rewrite S1, RR1.
  unfold joiner_receive at 1. rewrite D2. cbn [joiner_receive_message set_jstate j_state]. rewrite AU. cbn [bind]. rewrite S3.
  cbn [bind]. rewrite RR2. unfold joiner_receive. rewrite D4.
  set (jj := set_jstate _ _).
  pose proof (joiner_receive_message authn jj (normalise reply)) as _.
  destruct (joiner_receive_message authn jj (normalise reply)) as [j3 r5] eqn:E. cbn [fst snd].
  destruct r5 as [[m|]|x]; cbn [bind]; try reflexivity.
  (* the state is AUTHENTICATE_SENT: no message is produced *)
  destruct (normalise reply); cbn in E; try (injection E; discriminate).
Qed.

Lemma handshake_welcomed cr c authn e1 e2 roles realm method authid extra a a1 a2 ch au sroles sid aid arole m :
  carries c (Hello (hello_with realm authid method extra roles)) ->
  acceptor_receive_message cr e1 a (Hello (hello_with realm authid method extra roles)) = (a1, Ok (Some (Challenge ch))) ->
  carries c (Challenge ch) -> authn ch = Ok au -> carries c (Authenticate au) ->
  acceptor_receive_message cr e2 a1 (Authenticate au) = (a2, Ok (Some (welcome_msg sroles sid aid arole m))) ->
  carries c (welcome_msg sroles sid aid arole m) ->
  exists j', handshake cr c authn e1 e2 roles (joiner_init realm method authid extra) a = (j', a2, Ok tt) /\
    joiner_details j' = Ok (mkDetails (PyInt sid) realm (Some aid) (Some arole)).
Proof.
  intros C1 R1 C2 AU C3 R2 C4.
  destruct (handshake_challenged cr c authn e1 e2 roles realm method authid extra a a1 a2 ch au _ C1 R1 C2 AU C3 R2 C4)
    as (j2 & H & S & D & Re).
  eexists. unfold welcome_msg in *. cbn [normalise joiner_receive_message] in H. rewrite S in H. cbn [fst snd] in H.
  split; [exact H|]. unfold joiner_details. cbn. rewrite Re. reflexivity.
Qed.

Lemma handshake_refused cr c authn e1 e2 roles realm method authid extra a a1 a2 ch au args :
  carries c (Hello (hello_with realm authid method extra roles)) ->
  acceptor_receive_message cr e1 a (Hello (hello_with realm authid method extra roles)) = (a1, Ok (Some (Challenge ch))) ->
  carries c (Challenge ch) -> authn ch = Ok au -> carries c (Authenticate au) ->
  acceptor_receive_message cr e2 a1 (Authenticate au) = (a2, Ok (Some (auth_abort args))) ->
  carries c (auth_abort None) ->
  exists j', handshake cr c authn e1 e2 roles (joiner_init realm method authid extra) a =
      (j', a2, Raise (ApplicationError AUTHENTICATION_FAILED None None)) /\
    exists t, joiner_details j' = Raise (ValueError [t]).
Proof.
  intros C1 R1 C2 AU C3 R2 C4.
  assert (C4' : carries c (auth_abort args)) by exact C4.
  destruct (handshake_challenged cr c authn e1 e2 roles realm method authid extra a a1 a2 ch au _ C1 R1 C2 AU C3 R2 C4')
    as (j2 & H & S & D & Re).
  exists j2. cbn [normalise auth_abort joiner_receive_message fst snd] in H. split; [exact H|].
  unfold joiner_details. rewrite D. eexists. reflexivity.
Qed.

(** The router's side of each method on a fresh acceptor. *)
Lemma srv_anonymous cr sroles sid e realm authid extra roles r :
  e_auth e (AnonymousRequest realm (Some authid) (Some extra)) = Accept r ->
  exists a', acceptor_receive_message cr e (acceptor_init sroles true sid) (Hello (hello_with realm authid "anonymous" extra roles))
    = (a', Ok (Some (welcome_msg sroles sid (resp_authid r) (resp_authrole r) (Some "anonymous"%string)))) /\
    acceptor_details a' = Ok (mkDetails (PyInt sid) realm (Some (resp_authid r)) (Some (resp_authrole r))).
Proof. intros H. cbn. unfold receive_hello. cbn. rewrite H. eexists. split; reflexivity. Qed.

Lemma srv_none cr sroles sid e realm authid method extra roles :
  exists a', acceptor_receive_message cr e (acceptor_init sroles false sid) (Hello (hello_with realm authid method extra roles))
    = (a', Ok (Some (welcome_msg sroles sid "anonymous" "anonymous" (Some "anonymous"%string)))) /\
    acceptor_details a' = Ok (mkDetails (PyInt sid) realm (Some "anonymous"%string) (Some "anonymous"%string)).
Proof. eexists. split; reflexivity. Qed.

Lemma srv_ticket cr sroles sid e1 e2 realm authid extra roles ticket :
  exists a1, acceptor_receive_message cr e1 (acceptor_init sroles true sid) (Hello (hello_with realm authid "ticket" extra roles))
      = (a1, Ok (Some (Challenge (mkChallenge "ticket" [])))) /\
    (forall r, e_auth e2 (TicketRequest realm (Some authid) (Some extra) ticket) = Accept r ->
       exists a2, acceptor_receive_message cr e2 a1 (Authenticate (mkAuthenticate ticket [])) =
           (a2, Ok (Some (welcome_msg sroles sid (resp_authid r) (resp_authrole r) None))) /\
         acceptor_details a2 = Ok (mkDetails (PyInt sid) realm (Some (resp_authid r)) (Some (resp_authrole r)))) /\
    (forall args, e_auth e2 (TicketRequest realm (Some authid) (Some extra) ticket) = Reject args ->
       exists a2, acceptor_receive_message cr e2 a1 (Authenticate (mkAuthenticate ticket [])) =
           (a2, Ok (Some (auth_abort (Some args)))) /\ exists t, acceptor_details a2 = Raise (ValueError [t])).
Proof.
  eexists. split; [reflexivity|]. split.
  - intros r H. cbn. unfold receive_authenticate. cbn. rewrite H. eexists. split; reflexivity.
  - intros args H. cbn. unfold receive_authenticate. cbn. rewrite H. eexists. split; [reflexivity|]. eexists. reflexivity.
Qed.

Lemma srv_wampcra cr sroles sid e1 e2 realm authid extra roles aid arole secret salted text sig :
  e_auth e1 (WAMPCRARequest realm (Some authid) (Some extra)) = Accept (WAMPCRAResponse aid arole secret salted) ->
  generate_wampcra_challenge (e_json_dumps e1) (e_random e1) (e_now e1) sid aid arole "dynamic" = Ok text ->
  exists a1, acceptor_receive_message cr e1 (acceptor_init sroles true sid) (Hello (hello_with realm authid "wampcra" extra roles))
      = (a1, Ok (Some (Challenge (mkChallenge "wampcra" [(VStr "challenge", VStr text)])))) /\
    (verify_wampcra_signature cr sig text (encode_str secret) = Ok true ->
       exists a2, acceptor_receive_message cr e2 a1 (Authenticate (mkAuthenticate sig [])) =
           (a2, Ok (Some (welcome_msg sroles sid aid arole None))) /\
         acceptor_details a2 = Ok (mkDetails (PyInt sid) realm (Some aid) (Some arole))) /\
    (verify_wampcra_signature cr sig text (encode_str secret) = Ok false ->
       exists a2, acceptor_receive_message cr e2 a1 (Authenticate (mkAuthenticate sig [])) =
           (a2, Ok (Some (auth_abort None))) /\ is_aborted a2 = true /\ exists t, acceptor_details a2 = Raise (ValueError [t])).
Proof.
  intros H1 H2. cbn. unfold receive_hello. cbn. rewrite H1, H2. eexists. split; [reflexivity|]. split.
  - intros V. unfold receive_authenticate. cbn. rewrite V. eexists. split; reflexivity.
  - intros V. unfold receive_authenticate. cbn. rewrite V. eexists. split; [reflexivity|]. split; [reflexivity|].
    eexists. reflexivity.
Qed.

Lemma srv_cryptosign cr sroles sid e1 e2 realm authid extra roles r k pub sig :
  sget "pubkey" extra = Some k -> unhexlify k = Ok pub ->
  e_auth e1 (CryptoSignRequest realm (Some authid) (Some extra) k) = Accept r ->
  exists a1, acceptor_receive_message cr e1 (acceptor_init sroles true sid) (Hello (hello_with realm authid "cryptosign" extra roles))
      = (a1, Ok (Some (Challenge (mkChallenge "cryptosign"
          [(VStr "challenge", VStr (generate_cryptosign_challenge (e_random e1)))])))) /\
    (verify_cryptosign_signature cr sig pub = Ok true ->
       exists a2, acceptor_receive_message cr e2 a1 (Authenticate (mkAuthenticate sig [])) =
           (a2, Ok (Some (welcome_msg sroles sid (resp_authid r) (resp_authrole r) None))) /\
         acceptor_details a2 = Ok (mkDetails (PyInt sid) realm (Some (resp_authid r)) (Some (resp_authrole r)))) /\
    (verify_cryptosign_signature cr sig pub = Ok false ->
       exists a2, acceptor_receive_message cr e2 a1 (Authenticate (mkAuthenticate sig [])) =
           (a2, Ok (Some (auth_abort None))) /\ is_aborted a2 = true /\ exists t, acceptor_details a2 = Raise (ValueError [t])).
Proof.
  intros H1 H2 H3. cbn -[unhexlify verify_cryptosign_signature acceptor_details is_aborted]. unfold receive_hello. cbn -[unhexlify verify_cryptosign_signature acceptor_details is_aborted]. unfold sget_default. rewrite H1.
  destruct k as [| | | |s|b| | |]; try discriminate;
    (rewrite H3; eexists; split; [reflexivity|]; split;
      [intros V; unfold receive_authenticate; cbn -[unhexlify verify_cryptosign_signature welcome_msg auth_abort]; rewrite H2; cbn [bind]; rewrite V; eexists; split; reflexivity
      |intros V; unfold receive_authenticate; cbn -[unhexlify verify_cryptosign_signature welcome_msg auth_abort]; rewrite H2; cbn [bind]; rewrite V; eexists; split; [reflexivity|]; split; [reflexivity|]; eexists; reflexivity]).
Qed.

(** ** The theorems C43/C44 *)
Definition agreed (r : joiner * acceptor * res unit) (d : details) : Prop :=
  let '(j, a, out) := r in out = Ok tt /\ joiner_details j = Ok d /\ acceptor_details a = Ok d.
Definition refused (r : joiner * acceptor * res unit) : Prop :=
  let '(j, a, out) := r in
  out = Raise (ApplicationError AUTHENTICATION_FAILED None None) /\
  (exists t, joiner_details j = Raise (ValueError [t])) /\ (exists t, acceptor_details a = Raise (ValueError [t])).

Lemma e2e_none cr c e1 e2 roles sroles sid realm cl :
  carries c (Hello (hello_with realm (cl_authid cl) (cl_method cl) (cl_extra cl) roles)) ->
  carries c (welcome_msg sroles sid "anonymous" "anonymous" (Some "anonymous"%string)) ->
  agreed (handshake cr c (cl_authenticate cl) e1 e2 roles (joiner_with realm cl) (acceptor_init sroles false sid))
    (mkDetails (PyInt sid) realm (Some "anonymous"%string) (Some "anonymous"%string)).
Proof.
  intros C1 C2.
  destruct (srv_none cr sroles sid e1 realm (cl_authid cl) (cl_method cl) (cl_extra cl) roles) as (a' & R & D).
  destruct (handshake_direct cr c (cl_authenticate cl) e1 e2 roles realm (cl_method cl) (cl_authid cl) (cl_extra cl)
              _ a' _ _ _ sid sroles C1 R C2) as (j' & H & DJ).
  unfold joiner_with, agreed. rewrite H. auto.
Qed.

Lemma e2e_anonymous cr c e1 e2 roles sroles sid realm authid extra r :
  let cl := anonymous_client authid extra in
  e_auth e1 (AnonymousRequest realm (Some authid) (Some (cl_extra cl))) = Accept r ->
  carries c (Hello (hello_with realm authid "anonymous" (cl_extra cl) roles)) ->
  carries c (welcome_msg sroles sid (resp_authid r) (resp_authrole r) (Some "anonymous"%string)) ->
  agreed (handshake cr c (cl_authenticate cl) e1 e2 roles (joiner_with realm cl) (acceptor_init sroles true sid))
    (mkDetails (PyInt sid) realm (Some (resp_authid r)) (Some (resp_authrole r))).
Proof.
  intros cl A C1 C2.
  destruct (srv_anonymous cr sroles sid e1 realm authid (cl_extra cl) roles r A) as (a' & R & D).
  destruct (handshake_direct cr c (cl_authenticate cl) e1 e2 roles realm "anonymous" authid (cl_extra cl)
              _ a' _ _ _ sid sroles C1 R C2) as (j' & H & DJ).
  unfold joiner_with, agreed. cbn [cl cl_method cl_authid anonymous_client] in *. rewrite H. auto.
Qed.

Lemma e2e_ticket cr c e1 e2 roles sroles sid realm authid ticket extra :
  let cl := ticket_client authid ticket extra in
  carries c (Hello (hello_with realm authid "ticket" (cl_extra cl) roles)) ->
  carries c (Challenge (mkChallenge "ticket" [])) ->
  carries c (Authenticate (mkAuthenticate ticket [])) ->
  (forall r, e_auth e2 (TicketRequest realm (Some authid) (Some (cl_extra cl)) ticket) = Accept r ->
     carries c (welcome_msg sroles sid (resp_authid r) (resp_authrole r) None) ->
     agreed (handshake cr c (cl_authenticate cl) e1 e2 roles (joiner_with realm cl) (acceptor_init sroles true sid))
       (mkDetails (PyInt sid) realm (Some (resp_authid r)) (Some (resp_authrole r)))) /\
  (forall args, e_auth e2 (TicketRequest realm (Some authid) (Some (cl_extra cl)) ticket) = Reject args ->
     carries c (auth_abort None) ->
     refused (handshake cr c (cl_authenticate cl) e1 e2 roles (joiner_with realm cl) (acceptor_init sroles true sid))).
Proof.
  intros cl C1 C2 C3.
  destruct (srv_ticket cr sroles sid e1 e2 realm authid (cl_extra cl) roles ticket) as (a1 & R1 & RA & RR).
  split.
  - intros r A C4. destruct (RA r A) as (a2 & R2 & D).
    destruct (handshake_welcomed cr c (cl_authenticate cl) e1 e2 roles realm "ticket" authid (cl_extra cl) _ a1 a2 _
                (mkAuthenticate ticket []) sroles sid _ _ _ C1 R1 C2 eq_refl C3 R2 C4) as (j' & H & DJ).
    unfold joiner_with, agreed. cbn [cl cl_method cl_authid ticket_client] in *. rewrite H. auto.
  - intros args A C4. destruct (RR args A) as (a2 & R2 & D).
    destruct (handshake_refused cr c (cl_authenticate cl) e1 e2 roles realm "ticket" authid (cl_extra cl) _ a1 a2 _
                (mkAuthenticate ticket []) _ C1 R1 C2 eq_refl C3 R2 C4) as (j' & H & DJ).
    unfold joiner_with, refused. cbn [cl cl_method cl_authid ticket_client] in *. rewrite H. auto.
Qed.

Lemma cra_verify_differs cr c k k' : hmac_sha256 cr k' (encode_str c) <> hmac_sha256 cr k (encode_str c) ->
  verify_wampcra_signature cr (sign_wampcra_challenge cr c k') c k = Ok false.
Proof.
  intros N. unfold verify_wampcra_signature. rewrite !sign_decodes. cbn [bind].
  destruct (list_eq_dec ascii_dec _ _); [contradiction|reflexivity].
Qed.

Lemma e2e_wampcra cr c e1 e2 roles sroles sid realm authid my_secret extra aid arole secret salted text :
  let cl := wampcra_client cr authid my_secret extra in
  let sig := sign_wampcra_challenge cr text (encode_str my_secret) in
  e_auth e1 (WAMPCRARequest realm (Some authid) (Some (cl_extra cl))) = Accept (WAMPCRAResponse aid arole secret salted) ->
  generate_wampcra_challenge (e_json_dumps e1) (e_random e1) (e_now e1) sid aid arole "dynamic" = Ok text -> utf8_valid (encode_str text) = true ->
  carries c (Hello (hello_with realm authid "wampcra" (cl_extra cl) roles)) ->
  carries c (Challenge (mkChallenge "wampcra" [(VStr "challenge", VStr text)])) ->
  carries c (Authenticate (mkAuthenticate sig [])) ->
  (my_secret = secret -> carries c (welcome_msg sroles sid aid arole None) ->
     agreed (handshake cr c (cl_authenticate cl) e1 e2 roles (joiner_with realm cl) (acceptor_init sroles true sid))
       (mkDetails (PyInt sid) realm (Some aid) (Some arole))) /\
  (hmac_sha256 cr (encode_str my_secret) (encode_str text) <> hmac_sha256 cr (encode_str secret) (encode_str text) ->
     carries c (auth_abort None) ->
     refused (handshake cr c (cl_authenticate cl) e1 e2 roles (joiner_with realm cl) (acceptor_init sroles true sid))).
Proof.
  intros cl sig A G V C1 C2 C3.
  assert (X : cl_authenticate cl (mkChallenge "wampcra" [(VStr "challenge", VStr text)]) = Ok (mkAuthenticate sig [])).
  { cbn [cl cl_authenticate wampcra_client]. rewrite cra_client_no_salt by reflexivity. cbn [ch_extra sget String.eqb Ascii.eqb Bool.eqb]. rewrite V. reflexivity. }
  destruct (srv_wampcra cr sroles sid e1 e2 realm authid (cl_extra cl) roles aid arole secret salted text sig A G)
    as (a1 & R1 & RA & RR).
  split.
  - intros E C4. destruct RA as (a2 & R2 & D).
    { unfold sig. rewrite E. apply cra_verify_sign. }
    destruct (handshake_welcomed cr c (cl_authenticate cl) e1 e2 roles realm "wampcra" authid (cl_extra cl) _ a1 a2 _
                (mkAuthenticate sig []) sroles sid _ _ _ C1 R1 C2 X C3 R2 C4) as (j' & H & DJ).
    unfold joiner_with, agreed. cbn [cl cl_method cl_authid wampcra_client] in *. rewrite H. auto.
  - intros E C4. destruct RR as (a2 & R2 & _ & D).
    { unfold sig. apply cra_verify_differs. exact E. }
    destruct (handshake_refused cr c (cl_authenticate cl) e1 e2 roles realm "wampcra" authid (cl_extra cl) _ a1 a2 _
                (mkAuthenticate sig []) _ C1 R1 C2 X C3 R2 C4) as (j' & H & DJ).
    unfold joiner_with, refused. cbn [cl cl_method cl_authid wampcra_client] in *. rewrite H. auto.
Qed.

Lemma cs_client_authenticate cr authid priv extra cl after seed :
  cryptosign_client cr authid priv extra = Ok (cl, after) -> unhexlify_str priv = Ok seed ->
  cl_authenticate cl = cryptosign_authenticate cr seed.
Proof.
  unfold cryptosign_client. intros H U. rewrite U in H. cbn [bind] in H.
  destruct (length seed =? 32)%nat; [|discriminate]. injection H as <- _. reflexivity.
Qed.

Lemma e2e_cryptosign cr c e1 e2 roles sroles sid realm authid priv seed extra cl after r sig :
  ed25519_correct cr ->
  cryptosign_client cr authid priv extra = Ok (cl, after) -> sget "pubkey" (extra_or_empty extra) = None ->
  unhexlify_str priv = Ok seed ->
  let pubkey := VStr (decode_str (hexlify (ed_public cr seed))) in
  let challenge := generate_cryptosign_challenge (e_random e1) in
  e_auth e1 (CryptoSignRequest realm (Some authid) (Some (cl_extra cl)) pubkey) = Accept r ->
  sign_cryptosign_challenge cr (VStr challenge) seed = Ok sig ->
  carries c (Hello (hello_with realm authid "cryptosign" (cl_extra cl) roles)) ->
  carries c (Challenge (mkChallenge "cryptosign" [(VStr "challenge", VStr challenge)])) ->
  carries c (Authenticate (mkAuthenticate sig [])) ->
  carries c (welcome_msg sroles sid (resp_authid r) (resp_authrole r) None) ->
  agreed (handshake cr c (cl_authenticate cl) e1 e2 roles (joiner_with realm cl) (acceptor_init sroles true sid))
    (mkDetails (PyInt sid) realm (Some (resp_authid r)) (Some (resp_authrole r))).
Proof.
  intros ED CL NP U pubkey challenge A SG C1 C2 C3 C4.
  destruct (cs_client_pubkey _ _ _ _ _ _ CL) as (seed' & U' & L & PK & _). rewrite U in U'. injection U' as <-.
  rewrite NP in PK. fold pubkey in PK.
  destruct (cs_client_extra _ _ _ _ _ _ CL) as (_ & _ & _ & EA & EM & _).
  pose proof (cs_client_authenticate _ _ _ _ _ _ _ CL U) as AU.
  destruct (srv_cryptosign cr sroles sid e1 e2 realm authid (cl_extra cl) roles r pubkey (ed_public cr seed) sig PK
              (unhexlify_hexlify _) A) as (a1 & R1 & RA & _).
  destruct RA as (a2 & R2 & D).
  { destruct (cs_sign_verify cr seed challenge (e_random e1) ED L (cs_generated _)) as (s & S1 & S2).
    rewrite SG in S1. injection S1 as <-. exact S2. }
  assert (X : cl_authenticate cl (mkChallenge "cryptosign" [(VStr "challenge", VStr challenge)]) = Ok (mkAuthenticate sig [])).
  { rewrite AU. unfold cryptosign_authenticate. cbn [ch_extra sget_default sget String.eqb Ascii.eqb Bool.eqb].
    unfold sget_default. cbn [sget String.eqb Ascii.eqb Bool.eqb]. rewrite SG. reflexivity. }
  destruct (handshake_welcomed cr c (cl_authenticate cl) e1 e2 roles realm "cryptosign" authid (cl_extra cl) _ a1 a2 _
                (mkAuthenticate sig []) sroles sid _ _ _ C1 R1 C2 X C3 R2 C4) as (j' & H & DJ).
  unfold joiner_with, agreed. rewrite EA, EM, H. auto.
Qed.

(** ** C72 *)
Lemma salted_refused cr c e1 e2 roles sroles sid realm authid password extra aid arole salt it kl dk text :
  let cl := wampcra_client cr authid password extra in
  let derived := decode_str (b64encode dk) in
  pbkdf2 cr (encode_str password) (encode_str salt) (VInt it) (VInt kl) = Ok dk ->
  e_auth e1 (WAMPCRARequest realm (Some authid) (Some (cl_extra cl)))
    = Accept (WAMPCRAResponse aid arole derived (Some (salt, it, kl))) ->
  generate_wampcra_challenge (e_json_dumps e1) (e_random e1) (e_now e1) sid aid arole "dynamic" = Ok text -> utf8_valid (encode_str text) = true ->
  carries c (Hello (hello_with realm authid "wampcra" (cl_extra cl) roles)) ->
  carries c (Challenge (mkChallenge "wampcra" [(VStr "challenge", VStr text)])) ->
  carries c (Authenticate (mkAuthenticate (sign_wampcra_challenge cr text (encode_str password)) [])) ->
  carries c (auth_abort None) ->
  hmac_sha256 cr (encode_str password) (encode_str text) <> hmac_sha256 cr (encode_str derived) (encode_str text) ->
  refused (handshake cr c (cl_authenticate cl) e1 e2 roles (joiner_with realm cl) (acceptor_init sroles true sid)).
Proof.
  intros cl derived K A G V C1 C2 C3 C4 N.
  exact (proj2 (e2e_wampcra cr c e1 e2 roles sroles sid realm authid password extra aid arole derived _ text A G V C1 C2 C3) N C4).
Qed.

(** The CHALLENGE never carries a salt. *)
Lemma challenge_no_salt cr roles ha sid a h e msg ch :
  AInv cr roles ha sid a h -> snd (acceptor_receive_message cr e a msg) = Ok (Some (Challenge ch)) ->
  sget "salt" (ch_extra ch) = None.
Proof.
  intros I H. pose proof (step_outcome cr roles ha sid a h e msg I) as O. rewrite H in O.
  inversion O as [|m a' c OS S' R D' SA HA E1 E2 E3| | | | | |].
  destruct R as [e0 m0 c0 extra k r M1 M2 M3 M4 M5 M6 M7 M8 M9 M10
               | e0 m0 c0 authid authrole secret salted text M1 M2 M3 M4 M5 M6 M7 M8 M9 M10
               | e0 m0 c0 M1 M2 M3 M4 M5]; [rewrite M10|rewrite M9|rewrite M5]; reflexivity.
Qed.

(** ** Witnesses *)
Definition ticket_env (good : string) : env :=
  mkEnv (fun r => match r with
                  | TicketRequest _ _ _ t => if String.eqb t good then Accept (PlainResponse "joe" "user") else Reject []
                  | _ => Reject []
                  end) [] "" (fun _ => Raise (CodecError "")).
Definition ticket_hello : message := Hello (hello_with "realm1" "joe" "ticket" [] None).

Lemma abort_not_final_ticket : exists cr roles sid ops e msg,
  let (a, h) := arun cr roles true sid ops in
  existsb sent_abort h = true /\ is_aborted a = false /\
  exists w, snd (acceptor_receive_message cr e a msg) = Ok (Some (Welcome w)).
Proof.
  exists (mkCrypto (fun k m => m) (fun _ _ _ _ => Ok []) (fun s => s) (fun _ m => m) (fun _ _ _ => false)), None, 7,
    [(ticket_env "right", ticket_hello); (ticket_env "right", Authenticate (mkAuthenticate "wrong" []))],
    (ticket_env "right"), (Authenticate (mkAuthenticate "right" [])).
  cbn. split; [reflexivity|]. split; [reflexivity|]. eexists. reflexivity.
Qed.

(** Any number of wrong tickets may be tried. *)
Lemma ticket_guessing cr roles sid n :
  let wrong := Authenticate (mkAuthenticate "wrong" []) in
  let a := fst (arun cr roles true sid ((ticket_env "right", ticket_hello) :: repeat (ticket_env "right", wrong) n)) in
  exists w, snd (acceptor_receive_message cr (ticket_env "right") a (Authenticate (mkAuthenticate "right" []))) = Ok (Some (Welcome w)).
Proof.
  intros wrong a. set (a1 := fst (arun cr roles true sid [(ticket_env "right", ticket_hello)])).
  assert (E : forall h, fst (fold_left (astep cr) (repeat (ticket_env "right", wrong) n) (a1, h)) = a1).
  { induction n as [|n IH]; intros h; [reflexivity|]. cbn [repeat fold_left].
    replace (astep cr (a1, h) (ticket_env "right", wrong)) with (a1, mkEntry (ticket_env "right") wrong (Ok (Some (auth_abort (Some [])))) :: h) by reflexivity.
    apply IH. }
  assert (A : a = a1).
  { unfold a, arun. cbn [fold_left]. rewrite <- (E [mkEntry (ticket_env "right") ticket_hello (Ok (Some (Challenge (mkChallenge "ticket" []))))]).
    reflexivity. }
  rewrite A. eexists. reflexivity.
Qed.

Lemma bad_hex_raises cr roles sid e1 e2 k pub r :
  e_auth e1 (CryptoSignRequest "realm1" (Some "joe"%string) (Some [(VStr "pubkey", k)]) k) = Accept r ->
  unhexlify k = Ok pub -> length pub = 32%nat ->
  let (a, h) := arun cr roles true sid [(e1, Hello (hello_with "realm1" "joe" "cryptosign" [(VStr "pubkey", k)] None))] in
  authenticate_allowed h = true /\
  exists t, snd (acceptor_receive_message cr e2 a (Authenticate (mkAuthenticate "zz" []))) = Raise (BinasciiError t).
Proof.
  intros A U L. destruct k; try discriminate; cbn -[unhexlify]; unfold receive_hello; cbn -[unhexlify];
    match goal with |- context [match ?t with Accept _ => _ | Reject _ => _ end] => replace t with (Accept r) by (symmetry; exact A) end;
    (split; [reflexivity|]); unfold receive_authenticate; cbn -[unhexlify verify_cryptosign_signature];
    rewrite U; cbn [bind]; unfold verify_cryptosign_signature; rewrite L; eexists; reflexivity.
Qed.

Lemma bad_pubkey_raises cr roles sid e1 e2 r sig :
  e_auth e1 (CryptoSignRequest "realm1" (Some "joe"%string) (Some [(VStr "pubkey", VStr "zz")]) (VStr "zz")) = Accept r ->
  let (a, h) := arun cr roles true sid [(e1, Hello (hello_with "realm1" "joe" "cryptosign" [(VStr "pubkey", VStr "zz")] None))] in
  authenticate_allowed h = true /\
  exists t, snd (acceptor_receive_message cr e2 a (Authenticate (mkAuthenticate sig []))) = Raise (BinasciiError t).
Proof.
  intros A. cbn. unfold receive_hello. cbn.
  match goal with |- context [match ?t with Accept _ => _ | Reject _ => _ end] => replace t with (Accept r) by (symmetry; exact A) end.
  split; [reflexivity|].
  unfold receive_authenticate. cbn. eexists. reflexivity.
Qed.

Lemma non_ascii_raises cr roles sid e1 e2 aid arole secret salted text :
  e_auth e1 (WAMPCRARequest "realm1" (Some "joe"%string) (Some [])) = Accept (WAMPCRAResponse aid arole secret salted) ->
  generate_wampcra_challenge (e_json_dumps e1) (e_random e1) (e_now e1) sid aid arole "dynamic" = Ok text ->
  let (a, h) := arun cr roles true sid [(e1, Hello (hello_with "realm1" "joe" "wampcra" [] None))] in
  authenticate_allowed h = true /\
  exists t, snd (acceptor_receive_message cr e2 a (Authenticate (mkAuthenticate "é" []))) = Raise (ValueError t).
Proof.
  intros A G. cbn. unfold receive_hello. cbn.
  match goal with |- context [match ?t with Accept _ => _ | Reject _ => _ end] => replace t with (Accept (WAMPCRAResponse aid arole secret salted)) by (symmetry; exact A) end.
  rewrite G. split; [reflexivity|].
  unfold receive_authenticate. cbn.
  destruct (cra_verify_total cr "é" text (encode_str secret)) as [_ T]. destruct (T eq_refl) as [m T']. 
  unfold verify_wampcra_signature in T'. cbn in T' |- *. eexists. reflexivity.
Qed.

Lemma receive_replies cr c e a data m a' reply bs :
  deserialize c data = Ok m -> acceptor_receive_message cr e a m = (a', Ok (Some reply)) -> serialize c reply = Ok bs ->
  exists done, acceptor_receive cr c e a data = (a', Ok (bs, done)).
Proof. intros H1 H2 H3. eexists. eapply receive_reply; eassumption. Qed.

Lemma challenge_exists cr roles ha sid ops :
  authenticate_allowed (snd (arun cr roles ha sid ops)) = true ->
  exists e0 m0 c0, latest challenge_of (snd (arun cr roles ha sid ops)) = Some (e0, m0, c0) /\
    (ch_method c0 = "ticket"%string \/ ch_method c0 = "wampcra"%string \/ ch_method c0 = "cryptosign"%string).
Proof.
  pose proof (AInv_run cr roles ha sid ops) as I. destruct (arun cr roles ha sid ops) as [a h]. cbn [fst snd] in *.
  intros A. destruct (state_of_history _ _ _ _ _ _ I) as (_ & (S & _) & _).
  destruct (ai_mem _ _ _ _ _ _ I (S A)) as (e0 & m0 & c0 & L & _). exists e0, m0, c0. split; [exact L|].
  eapply challenge_methods; eassumption.
Qed.

Lemma details_welcomed cr roles ha sid ops :
  (match a_state (fst (arun cr roles ha sid ops)) with A_WELCOME_SENT => exists d, a_details (fst (arun cr roles ha sid ops)) = Some d | _ => True end).
Proof.
  induction ops as [|[e msg] ops IH] using rev_ind; [exact Logic.I|].
  rewrite arun_snoc. pose proof (AInv_run cr roles ha sid ops) as I. destruct (arun cr roles ha sid ops) as [a h].
  cbn [fst snd] in *. unfold astep. cbn [fst snd].
  pose proof (step_outcome cr roles ha sid a h e msg I) as O.
  destruct (acceptor_receive_message cr e a msg) as [a' r] eqn:E. cbn [fst snd] in *.
  destruct O as [msg a' w realm authid authrole OS J W1 W2 W3 W4 W5 S' D' _ | m a' c OS S' R D' _ _
    | m a' args OS (B1 & B2 & _) | m args OS OM | m OS OM | m OS | msg OS OM | msg a' x (B1 & B2 & _) _].
  - rewrite S', D'. eauto.
  - rewrite S'. exact Logic.I.
  - rewrite B1, B2. exact IH.
  - exact IH.
  - exact Logic.I.
  - exact Logic.I.
  - exact IH.
  - rewrite B1, B2. exact IH.
Qed.

Lemma established_iff cr roles ha sid ops :
  (exists p, established (snd (arun cr roles ha sid ops)) = Some p) <-> existsb sent_welcome (snd (arun cr roles ha sid ops)) = true.
Proof.
  pose proof (details_established cr roles ha sid ops) as D. pose proof (details_welcomed cr roles ha sid ops) as W.
  pose proof (AInv_run cr roles ha sid ops) as I. destruct (arun cr roles ha sid ops) as [a h]. cbn [fst snd] in *.
  destruct (state_of_history _ _ _ _ _ _ I) as (_ & _ & (S1 & S2) & _). pose proof (ai_details _ _ _ _ _ _ I) as N.
  split.
  - intros [p E]. apply S2. rewrite E in D. destruct (a_state a); try reflexivity; rewrite N in D by discriminate; discriminate.
  - intros H. rewrite (S1 H) in W. destruct W as [d W]. rewrite W in D. destruct (established h) as [p|]; [eauto|discriminate].
Qed.

Lemma details_none cr roles ha sid ops :
  existsb sent_welcome (snd (arun cr roles ha sid ops)) = false ->
  exists t, acceptor_details (fst (arun cr roles ha sid ops)) = Raise (ValueError [t]).
Proof.
  pose proof (AInv_run cr roles ha sid ops) as I. destruct (arun cr roles ha sid ops) as [a h]. cbn [fst snd] in *.
  destruct (state_of_history _ _ _ _ _ _ I) as (_ & _ & (S1 & S2) & _). pose proof (ai_details _ _ _ _ _ _ I) as N.
  intros H. unfold acceptor_details. rewrite N; [eexists; reflexivity|]. intros E. rewrite (S2 E) in H. discriminate.
Qed.

Lemma hello_reply cr roles sid a h : AInv cr roles true sid a h -> forall e m, hello_allowed h = true ->
  let out := snd (acceptor_receive_message cr e a (Hello m)) in
  (first_method m = VStr "ticket" -> out = Ok (Some (Challenge (mkChallenge "ticket" [])))) /\
  (first_method m = VStr "anonymous" -> forall args,
     e_auth e (AnonymousRequest (he_realm m) (he_authid m) (he_authextra m)) = Reject args ->
     out = Ok (Some (auth_abort (Some args)))) /\
  (first_method m = VStr "wampcra" ->
     (forall args, e_auth e (WAMPCRARequest (he_realm m) (he_authid m) (he_authextra m)) = Reject args ->
        out = Ok (Some (auth_abort (Some args)))) /\
     (forall aid arole secret salted text,
        e_auth e (WAMPCRARequest (he_realm m) (he_authid m) (he_authextra m)) = Accept (WAMPCRAResponse aid arole secret salted) ->
        generate_wampcra_challenge (e_json_dumps e) (e_random e) (e_now e) sid aid arole "dynamic" = Ok text ->
        out = Ok (Some (Challenge (mkChallenge "wampcra" [(VStr "challenge", VStr text)]))))) /\
  (first_method m = VStr "cryptosign" -> forall extra, he_authextra m = Some extra ->
     (forall k args, sget "pubkey" extra = Some k -> k <> VNone ->
        e_auth e (CryptoSignRequest (he_realm m) (he_authid m) (he_authextra m) k) = Reject args ->
        out = Ok (Some (auth_abort (Some args)))) /\
     (forall k r, sget "pubkey" extra = Some k -> k <> VNone ->
        e_auth e (CryptoSignRequest (he_realm m) (he_authid m) (he_authextra m) k) = Accept r ->
        out = Ok (Some (Challenge (mkChallenge "cryptosign" [(VStr "challenge", VStr (decode_str (hexlify (e_random e))))])))) /\
     (sget "pubkey" extra = None -> exists t, out = Raise (ValueError [t]))) /\
  ((forall s, In s ["anonymous"; "ticket"; "wampcra"; "cryptosign"]%string -> first_method m <> VStr s) ->
     exists t, out = Raise (ValueError [t])).
Proof.
  intros I e m A out. destruct (state_of_history _ _ _ _ _ _ I) as ((S & _) & _). specialize (S A).
  destruct (ai_attrs _ _ _ _ _ _ I) as (A1 & A2 & A3). subst out. cbn [acceptor_receive_message].
  unfold acceptor_receive_message. rewrite S. unfold receive_hello. rewrite S, A1. cbn [negb].
  split; [|split; [|split; [|split]]].
  - intros ->. reflexivity.
  - intros F args R. rewrite F. cbn [is_method String.eqb Ascii.eqb Bool.eqb]. rewrite R. reflexivity.
  - intros F. rewrite F. cbn [is_method String.eqb Ascii.eqb Bool.eqb]. split.
    + intros args R. rewrite R. reflexivity.
    + intros aid arole secret salted text R G. rewrite R. cbv zeta. cbn [a_session_id a_set_hello a_set_response a_set_secret].
      rewrite A2, G. reflexivity.
  - intros F extra X. rewrite F, X. cbn [is_method String.eqb Ascii.eqb Bool.eqb]. unfold sget_default. split; [|split].
    + intros k args P NN R. rewrite P. destruct k; try contradiction; rewrite R; reflexivity.
    + intros k r P NN R. rewrite P. destruct k; try contradiction; rewrite R; reflexivity.
    + intros P. rewrite P. eexists. reflexivity.
  - intros N.
    assert (K : forall s, In s ["anonymous"; "ticket"; "wampcra"; "cryptosign"]%string -> is_method (first_method m) s = false).
    { intros s Hs. specialize (N s Hs). destruct (is_method (first_method m) s) eqn:E; [|reflexivity].
      apply is_method_iff in E. contradiction. }
    rewrite !K by (cbn; auto). eexists. reflexivity.
Qed.

(** The default roles are well formed. *)
Lemma wf_default_roles : wf_roles CLIENT_ROLES /\ wf_roles ROUTER_ROLES.
Proof.
  split; (split; [discriminate|]); intros k v H; cbn in H;
    repeat (destruct H as [H|H]; [injection H as <- _; eexists; split; [reflexivity|cbn; auto 10]|]); contradiction.
Qed.
Lemma wf_hello_default realm authid method extra : wf_message (Hello (hello_with realm authid method extra None)).
Proof. exact (proj1 wf_default_roles). Qed.
Lemma wf_welcome_default sid aid arole m : 1 <= sid <= 2 ^ 53 -> wf_message (welcome_msg None sid aid arole m).
Proof. intros H. split; [exists sid; auto|exact (proj2 wf_default_roles)]. Qed.
