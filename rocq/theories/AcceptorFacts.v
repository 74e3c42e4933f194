(** * AcceptorFacts: runs of an acceptor. *)
From Coq Require Import String Ascii List ZArith Bool Lia.
From Verif Require Import PyBase Messages Parse Serializer Encoding EncodingFacts Auth AuthFacts Joiner Acceptor.
From Verif Require Import SpecHistory SpecAcceptor.
Import ListNotations.
Local Open Scope Z_scope.

(** Everything the acceptor did with a list of (environment, message). *)
Definition astep (cr : crypto) (ah : acceptor * list aentry) (o : env * message) : acceptor * list aentry :=
  let '(a, h) := ah in
  let '(a', r) := acceptor_receive_message cr (fst o) a (snd o) in (a', mkEntry (fst o) (snd o) r :: h).
Definition arun (cr : crypto) (roles : option dict) (has_auth : bool) (sid : Z) (ops : list (env * message))
  : acceptor * list aentry :=
  fold_left (astep cr) ops (acceptor_init roles has_auth sid, []).

Lemma arun_snoc cr roles ha sid ops o : arun cr roles ha sid (ops ++ [o]) = astep cr (arun cr roles ha sid ops) o.
Proof. unfold arun. rewrite fold_left_app. reflexivity. Qed.

Lemma is_method_iff v s : is_method v s = true <-> v = VStr s.
Proof.
  destruct v; cbn; try (split; discriminate). rewrite String.eqb_eq. split; [intros ->; reflexivity|].
  intros H. injection H. auto.
Qed.

(** What the acceptor remembers of the HELLO it challenged. *)
Inductive remembers (a : acceptor) : env -> hello -> challenge -> Prop :=
| R_cs e0 m0 c0 extra k r :
    a_method a = Some (VStr "cryptosign") -> first_method m0 = VStr "cryptosign" -> ch_method c0 = "cryptosign"%string ->
    a_hello a = Some m0 -> he_authextra m0 = Some extra -> sget "pubkey" extra = Some k ->
    a_public_key a = Some k ->
    e_auth e0 (CryptoSignRequest (he_realm m0) (he_authid m0) (he_authextra m0) k) = Accept r ->
    a_response a = Some r -> ch_extra c0 = [(VStr "challenge", VStr (generate_cryptosign_challenge (e_random e0)))] ->
    remembers a e0 m0 c0
| R_cra e0 m0 c0 authid authrole secret salted text :
    a_method a = Some (VStr "wampcra") -> first_method m0 = VStr "wampcra" -> ch_method c0 = "wampcra"%string ->
    a_hello a = Some m0 ->
    e_auth e0 (WAMPCRARequest (he_realm m0) (he_authid m0) (he_authextra m0))
      = Accept (WAMPCRAResponse authid authrole secret salted) ->
    a_response a = Some (WAMPCRAResponse authid authrole secret salted) -> a_secret a = Some secret ->
    a_challenge a = Some text -> ch_extra c0 = [(VStr "challenge", VStr text)] ->
    generate_wampcra_challenge (e_json_dumps e0) (e_random e0) (e_now e0) (a_session_id a) authid authrole "dynamic" = Ok text ->
    remembers a e0 m0 c0
| R_ticket e0 m0 c0 :
    a_method a = Some (VStr "ticket") -> first_method m0 = VStr "ticket" -> ch_method c0 = "ticket"%string ->
    a_hello a = Some m0 -> ch_extra c0 = [] -> remembers a e0 m0 c0.

Definition the_details (sid : Z) (realm authid authrole : string) : details :=
  mkDetails (PyInt sid) realm (Some authid) (Some authrole).

(** What the history says in each state. *)
Definition state_agrees (s : astate) (h : list aentry) : Prop :=
  match s with
  | A_NONE => existsb sent_welcome h = false /\ existsb sent_challenge h = false /\ existsb peer_aborted h = false /\
              signature_failed h = false
  | A_CHALLENGE_SENT => existsb sent_welcome h = false /\ existsb sent_challenge h = true /\
              existsb peer_aborted h = false /\ signature_failed h = false
  | A_WELCOME_SENT => existsb sent_welcome h = true /\ existsb peer_aborted h = false /\ signature_failed h = false
  | A_ABORTED => existsb sent_welcome h = false /\ existsb peer_aborted h || signature_failed h = true /\
              existsb peer_aborted h || existsb sent_challenge h = true
  end.

Record AInv (cr : crypto) (roles : option dict) (ha : bool) (sid : Z) (a : acceptor) (h : list aentry) : Prop := mkAInv {
  ai_attrs : a_has_auth a = ha /\ a_session_id a = sid /\
             a_roles a = (match roles with Some r => r | None => ROUTER_ROLES end);
  ai_state : state_agrees (a_state a) h;
  ai_mem : a_state a = A_CHALLENGE_SENT ->
           exists e0 m0 c0, latest challenge_of h = Some (e0, m0, c0) /\ remembers a e0 m0 c0;
  ai_ha : a_state a = A_CHALLENGE_SENT -> a_has_auth a = true;
  ai_details : a_state a <> A_WELCOME_SENT -> a_details a = None }.

(** Nothing that matters changed. *)
Definition same_core (a a' : acceptor) : Prop :=
  a_state a' = a_state a /\ a_details a' = a_details a /\ a_has_auth a' = a_has_auth a /\
  a_session_id a' = a_session_id a /\ a_roles a' = a_roles a /\ (a_state a <> A_NONE -> a' = a).
Lemma same_core_refl a : same_core a a. Proof. repeat split. Qed.
Lemma same_core_hello a m h : a_state a = A_NONE -> same_core a (a_set_hello a m h).
Proof. intros H. repeat split; try reflexivity. intros N. contradiction. Qed.

Definition same_attrs (a a' : acceptor) : Prop :=
  a_has_auth a' = a_has_auth a /\ a_session_id a' = a_session_id a /\ a_roles a' = a_roles a.

(** Everything that can happen in one step. *)
Inductive outcome (cr : crypto) (a : acceptor) (h : list aentry) (e : env)
  : message -> acceptor -> res (option message) -> Prop :=
| O_welcome msg a' w realm authid authrole :
    (match msg with
     | Hello _ => a_state a = A_NONE | Authenticate _ => a_state a = A_CHALLENGE_SENT | _ => False
     end) ->
    justified cr (a_has_auth a) h e msg realm authid authrole ->
    we_session w = PyInt (a_session_id a) -> we_roles w = a_roles a -> we_authid w = Some authid ->
    we_authrole w = Some authrole -> we_authextra w = [] ->
    a_state a' = A_WELCOME_SENT -> a_details a' = Some (the_details (a_session_id a) realm authid authrole) ->
    same_attrs a a' ->
    outcome cr a h e msg a' (Ok (Some (Welcome w)))
| O_challenge m a' c :
    a_state a = A_NONE -> a_state a' = A_CHALLENGE_SENT -> remembers a' e m c -> a_details a' = a_details a ->
    same_attrs a a' -> a_has_auth a = true ->
    outcome cr a h e (Hello m) a' (Ok (Some (Challenge c)))
| O_reject_hello m a' args :
    a_state a = A_NONE -> same_core a a' ->
    outcome cr a h e (Hello m) a' (Ok (Some (auth_abort (Some args))))
| O_reject_ticket m args :
    a_state a = A_CHALLENGE_SENT -> a_method a = Some (VStr "ticket") ->
    outcome cr a h e (Authenticate m) a (Ok (Some (auth_abort (Some args))))
| O_bad_signature m :
    a_state a = A_CHALLENGE_SENT -> a_method a <> Some (VStr "ticket") ->
    outcome cr a h e (Authenticate m) (a_set_state a A_ABORTED) (Ok (Some (auth_abort None)))
| O_peer_abort m : a_state a <> A_WELCOME_SENT ->
    outcome cr a h e (Abort m) (a_set_state a A_ABORTED) (Ok None)
| O_ignored msg : a_state a <> A_WELCOME_SENT ->
    (match msg with Hello _ | Authenticate _ | Abort _ => False | _ => True end) ->
    outcome cr a h e msg a (Ok None)
| O_raise msg a' x : same_core a a' ->
    (match msg with
     | Hello _ => a_state a <> A_NONE | Authenticate _ => a_state a <> A_CHALLENGE_SENT | _ => True
     end -> a' = a /\ exists text, x = ValueError [text]) ->
    outcome cr a h e msg a' (Raise x).

Lemma do_welcome_outcome cr a h e msg a0 realm authid authrole mth :
  (match msg with
   | Hello _ => a_state a = A_NONE | Authenticate _ => a_state a = A_CHALLENGE_SENT | _ => False
   end) ->
  justified cr (a_has_auth a) h e msg realm authid authrole -> same_attrs a a0 ->
  outcome cr a h e msg (fst (do_welcome a0 realm authid authrole mth)) (snd (do_welcome a0 realm authid authrole mth)).
Proof.
  intros O J (S1 & S2 & S3). unfold do_welcome. cbn [fst snd].
  eapply O_welcome; try exact O; try exact J; cbn; try reflexivity; rewrite ?S2, ?S3; try reflexivity.
  repeat split; assumption.
Qed.

Lemma hello_outcome cr a h e m : outcome cr a h e (Hello m) (fst (receive_hello e a m)) (snd (receive_hello e a m)).
Proof.
  unfold receive_hello. destruct (a_state a) eqn:S;
    try (cbn [fst snd]; apply O_raise; [apply same_core_refl|]; intros _; split; [reflexivity|eexists; reflexivity]).
  destruct (a_has_auth a) eqn:HA; cbn [negb].
  2:{ apply do_welcome_outcome; [exact S| |repeat split]. rewrite HA. apply J_no_authenticator. reflexivity. }
  assert (SC : same_core a (a_set_hello a (first_method m) m)) by (apply same_core_hello; exact S).
  assert (NR : forall x, outcome cr a h e (Hello m) (a_set_hello a (first_method m) m) (Raise x)).
  { intros x. apply O_raise; [exact SC|]. intros N. contradiction. }
  destruct (is_method (first_method m) "anonymous") eqn:M1.
  { apply is_method_iff in M1. destruct (e_auth e _) as [r|args] eqn:E.
    - apply do_welcome_outcome; [exact S| |repeat split]. rewrite HA. eapply J_anonymous; eauto.
    - cbn [fst snd]. apply O_reject_hello; assumption. }
  destruct (is_method (first_method m) "cryptosign") eqn:M2.
  { apply is_method_iff in M2. destruct (he_authextra m) as [extra|] eqn:X; [|apply NR].
    destruct (sget_default "pubkey" VNone extra) eqn:P; try (apply NR);
      (match goal with |- context [match ?t with Accept _ => _ | Reject _ => _ end] => destruct t as [r|args] eqn:E end;
       cbn [fst snd]; [|apply O_reject_hello; assumption];
       apply O_challenge; try assumption; try reflexivity; [|repeat split];
       eapply R_cs; try reflexivity; try eassumption; try (cbn; congruence);
       unfold sget_default in P; destruct (sget "pubkey" extra); [subst; reflexivity|discriminate]). }
  destruct (is_method (first_method m) "wampcra") eqn:M3.
  { apply is_method_iff in M3. destruct (e_auth e _) as [[ra rr|ra rr rs salted]|args] eqn:E.
    - apply NR.
    - cbv zeta. destruct (generate_wampcra_challenge _ _ _ _ _ _ _) as [text|x] eqn:G.
      + cbn [fst snd]. apply O_challenge; try assumption; try reflexivity; [|repeat split].
        eapply R_cra; try reflexivity; try eassumption; cbn; congruence.
      + cbn [fst snd]. apply O_raise; [|intros N; contradiction]. repeat split. intros N. contradiction.
    - cbn [fst snd]. apply O_reject_hello; assumption. }
  destruct (is_method (first_method m) "ticket") eqn:M4.
  { apply is_method_iff in M4. cbn [fst snd].
    apply O_challenge; try assumption; try reflexivity; [|repeat split].
    eapply R_ticket; try reflexivity; cbn; congruence. }
  apply NR.
Qed.

Lemma authenticate_outcome cr a h e m :
  (a_state a = A_CHALLENGE_SENT ->
     exists e0 m0 c0, latest challenge_of h = Some (e0, m0, c0) /\ remembers a e0 m0 c0) ->
  (a_state a = A_CHALLENGE_SENT -> a_has_auth a = true) ->
  outcome cr a h e (Authenticate m) (fst (receive_authenticate cr e a m)) (snd (receive_authenticate cr e a m)).
Proof.
  intros MEM HA. unfold receive_authenticate. destruct (a_state a) eqn:S;
    try (cbn [fst snd]; apply O_raise; [apply same_core_refl|]; intros _; split; [reflexivity|eexists; reflexivity]).
  assert (NR : forall x, outcome cr a h e (Authenticate m) a (Raise x)).
  { intros x. apply O_raise; [apply same_core_refl|]. intros N. contradiction. }
  destruct (MEM eq_refl) as (e0 & m0 & c0 & L & R). specialize (HA eq_refl).
  destruct R as [e0 m0 c0 extra k r M1 M2 M3 M4 M5 M6 M7 M8 M9 M10
               | e0 m0 c0 authid authrole secret salted text M1 M2 M3 M4 M5 M6 M7 M8 M9 M10
               | e0 m0 c0 M1 M2 M3 M4 M5]; rewrite M1.
  - cbn [is_method String.eqb Ascii.eqb Bool.eqb]. rewrite M7, M9, M4.
    destruct (unhexlify k) as [pub|x] eqn:U; cbn [bind]; [|apply NR].
    destruct (verify_cryptosign_signature cr (au_signature m) pub) as [[]|x] eqn:V; [| |apply NR].
    + apply cs_verify_iff in V. destruct V as (L1 & sig & signed & V1 & V2 & V3).
      apply do_welcome_outcome; [exact S| |repeat split]. rewrite HA.
      eapply J_cryptosign; try eassumption; try reflexivity. split; [exact L1|]. exists sig. eauto.
    + apply O_bad_signature; [exact S|]. rewrite M1. discriminate.
  - cbn [is_method String.eqb Ascii.eqb Bool.eqb]. rewrite M7, M8, M6, M4.
    destruct (verify_wampcra_signature cr (au_signature m) text (encode_str secret)) as [[]|x] eqn:V; [| |apply NR].
    + apply cra_verify_iff in V. apply do_welcome_outcome; [exact S| |repeat split]. rewrite HA.
      eapply J_wampcra; try eassumption; try reflexivity. rewrite M9. reflexivity.
    + apply O_bad_signature; [exact S|]. rewrite M1. discriminate.
  - cbn [is_method String.eqb Ascii.eqb Bool.eqb]. rewrite M4.
    destruct (e_auth e _) as [r|args] eqn:E.
    + apply do_welcome_outcome; [exact S| |repeat split]. rewrite HA. eapply J_ticket; eauto.
    + apply O_reject_ticket; assumption.
Qed.

Lemma step_outcome cr roles ha sid a h e msg : AInv cr roles ha sid a h ->
  outcome cr a h e msg (fst (acceptor_receive_message cr e a msg)) (snd (acceptor_receive_message cr e a msg)).
Proof.
  intros I. unfold acceptor_receive_message.
  assert (HA : a_state a = A_CHALLENGE_SENT -> a_has_auth a = true).
  { exact (ai_ha _ _ _ _ _ _ I). }
  pose proof (ai_mem _ _ _ _ _ _ I) as MEM.
  destruct (a_state a) eqn:S.
  3:{ cbn [fst snd]. apply O_raise; [apply same_core_refl|]. intros _. split; [reflexivity|eexists; reflexivity]. }
  all: destruct msg; cbn [fst snd]; first [apply hello_outcome | apply authenticate_outcome; rewrite S; assumption
    | apply O_peer_abort; rewrite S; discriminate | apply O_ignored; [rewrite S; discriminate|exact Logic.I]].
Qed.

Lemma remembers_method a e0 m0 c0 : remembers a e0 m0 c0 -> a_method a = Some (VStr (ch_method c0)).
Proof. intros []; congruence. Qed.

Lemma AInv_init cr roles ha sid : AInv cr roles ha sid (acceptor_init roles ha sid) [].
Proof. constructor; try discriminate; repeat split. Qed.

Lemma AInv_step cr roles ha sid a h e msg : AInv cr roles ha sid a h ->
  AInv cr roles ha sid (fst (astep cr (a, h) (e, msg))) (snd (astep cr (a, h) (e, msg))).
Proof.
  intros I. pose proof (step_outcome cr roles ha sid a h e msg I) as O. unfold astep. cbn [fst snd].
  destruct (acceptor_receive_message cr e a msg) as [a' r]. cbn [fst snd] in *.
  destruct I as [(A1 & A2 & A3) S M HA D].
  destruct O as [msg a' w realm authid authrole OS J _ _ _ _ _ S' D' (B1 & B2 & B3)
    | m a' c OS S' R D' (B1 & B2 & B3) HA'
    | m a' args OS (B1 & B2 & B3 & B4 & B5 & B6)
    | m args OS OM
    | m OS OM
    | m OS
    | msg OS OM
    | msg a' x (B1 & B2 & B3 & B4 & B5 & B6) _].
  - constructor; try (rewrite ?S'; congruence).
    + repeat split; congruence.
    + rewrite S'. destruct msg; try contradiction; rewrite OS in S; cbn [state_agrees existsb] in *;
        cbn [existsb sent_welcome ae_out orb peer_aborted ae_msg signature_failed sent_abort andb];
        (split; [reflexivity|]); try (destruct S as (? & ? & ? & ?)); split; auto.
      destruct (latest challenge_of h) as [[[? ?] ?]|]; assumption.
  - constructor; try (rewrite ?S'; congruence).
    + repeat split; congruence.
    + rewrite S'. rewrite OS in S. cbn in S |- *. tauto.
    + intros _. exists e, m, c. split; [reflexivity|exact R].
    + intros _. rewrite D'. apply D. rewrite OS. discriminate.
  - constructor; try (rewrite B1, OS; discriminate).
    + repeat split; congruence.
    + rewrite B1. rewrite OS in *. cbn in S |- *. tauto.
    + intros _. rewrite B2. apply D. rewrite OS. discriminate.
  - rewrite OS in *. destruct (M eq_refl) as (e0 & m0 & c0 & L & R).
    constructor; rewrite ?OS; auto.
    + cbn in S |- *. rewrite L. apply remembers_method in R. rewrite OM in R. injection R as R. rewrite <- R. cbn. tauto.
  - rewrite OS in *. destruct (M eq_refl) as (e0 & m0 & c0 & L & R).
    constructor; cbn [a_set_state a_state a_has_auth a_session_id a_roles a_details]; auto; try discriminate.
    + cbn in S |- *. rewrite L. apply remembers_method in R. destruct S as (S1 & S2 & S3 & S4).
      rewrite S3. destruct (String.eqb_spec (ch_method c0) "ticket") as [E|E]; [rewrite E in R; contradiction|].
      cbn. auto.
    + intros _. apply D. discriminate.
  - constructor; cbn [a_set_state a_state a_has_auth a_session_id a_roles a_details]; auto; try discriminate.
    cbn. split; [|split; reflexivity]. destruct (a_state a); cbn in S; tauto.
  - constructor; auto.
    + assert (E : state_agrees (a_state a) h -> state_agrees (a_state a) (mkEntry e msg (Ok None) :: h)); [|auto].
      destruct msg; try contradiction; destruct (a_state a); cbn; tauto.
    + intros N. destruct (M N) as (e0 & m0 & c0 & L & R). exists e0, m0, c0. split; [|exact R].
      destruct msg; try contradiction; exact L.
  - constructor.
    + repeat split; congruence.
    + assert (E : state_agrees (a_state a) h -> state_agrees (a_state a') (mkEntry e msg (Raise x) :: h)); [|auto].
      rewrite B1. destruct msg; destruct (latest challenge_of h) as [[[? ?] ?]|] eqn:LC; destruct (a_state a); cbn; rewrite ?LC; cbn; tauto.
    + intros N. rewrite B1 in N. destruct (M N) as (e0 & m0 & c0 & L & R). exists e0, m0, c0.
      rewrite B6 by (rewrite N; discriminate). split; [|exact R]. destruct msg; exact L.
    + rewrite B1, B3. exact HA.
    + rewrite B1, B2. exact D.
Qed.

Lemma AInv_run cr roles ha sid ops :
  AInv cr roles ha sid (fst (arun cr roles ha sid ops)) (snd (arun cr roles ha sid ops)).
Proof.
  induction ops as [|[e msg] ops IH] using rev_ind; [apply AInv_init|].
  rewrite arun_snoc. destruct (arun cr roles ha sid ops) as [a h]. apply AInv_step. exact IH.
Qed.

Section Reached.
  Context (cr : crypto) (roles : option dict) (ha : bool) (sid : Z) (a : acceptor) (h : list aentry).
  Context (I : AInv cr roles ha sid a h).

  Lemma welcome_justified e msg w : snd (acceptor_receive_message cr e a msg) = Ok (Some (Welcome w)) ->
    (match msg with Hello _ => hello_allowed h = true | Authenticate _ => authenticate_allowed h = true | _ => False end) /\
    exists realm authid authrole, justified cr ha h e msg realm authid authrole /\
      we_session w = PyInt sid /\ we_authid w = Some authid /\ we_authrole w = Some authrole /\
      we_roles w = (match roles with Some r => r | None => ROUTER_ROLES end) /\
      acceptor_details (fst (acceptor_receive_message cr e a msg)) = Ok (mkDetails (PyInt sid) realm (Some authid) (Some authrole)).
  Proof.
    pose proof (step_outcome cr roles ha sid a h e msg I) as O. intros H. rewrite H in O.
    destruct (acceptor_receive_message cr e a msg) as [a' r]. cbn [fst snd] in *. subst r.
    destruct I as [(A1 & A2 & A3) S _ _ _]. rewrite <- A1, <- A2, <- A3.
    inversion O as [msg0 a0 w0 realm authid authrole OS J W1 W2 W3 W4 W5 S' D' X E1 E2 E3 | | | | | | |].
    split.
    - destruct msg; try contradiction; rewrite OS in S; cbn in S; destruct S as (S1 & S2 & S3 & S4);
        unfold hello_allowed, authenticate_allowed; rewrite S1, S2, S3, ?S4; reflexivity.
    - exists realm, authid, authrole. unfold acceptor_details. rewrite D'. repeat split; auto.
  Qed.

  Lemma state_of_history :
    (hello_allowed h = true <-> a_state a = A_NONE) /\ (authenticate_allowed h = true <-> a_state a = A_CHALLENGE_SENT) /\
    (existsb sent_welcome h = true <-> a_state a = A_WELCOME_SENT) /\
    (existsb peer_aborted h || signature_failed h = true <-> a_state a = A_ABORTED).
  Proof.
    destruct I as [_ S _ _ _]. unfold hello_allowed, authenticate_allowed.
    destruct (a_state a); cbn in S; destruct (existsb sent_welcome h), (existsb sent_challenge h), (existsb peer_aborted h), (signature_failed h);
      cbn in *; repeat split; intros; try discriminate; try reflexivity; intuition congruence.
  Qed.

  Lemma order_hello : hello_allowed h = false -> forall e m,
    exists t, acceptor_receive_message cr e a (Hello m) = (a, Raise (ValueError [t])).
  Proof.
    intros H e m. destruct state_of_history as ((_ & S) & _). unfold acceptor_receive_message, receive_hello.
    destruct (a_state a); try (eexists; reflexivity). rewrite (S eq_refl) in H. discriminate.
  Qed.

  Lemma order_authenticate : authenticate_allowed h = false -> forall e m,
    exists t, acceptor_receive_message cr e a (Authenticate m) = (a, Raise (ValueError [t])).
  Proof.
    intros H e m. destruct state_of_history as (_ & (_ & S) & _). unfold acceptor_receive_message, receive_authenticate.
    destruct (a_state a); try (eexists; reflexivity). rewrite (S eq_refl) in H. discriminate.
  Qed.

  Lemma after_welcome : existsb sent_welcome h = true -> forall e msg,
    exists t, acceptor_receive_message cr e a msg = (a, Raise (ValueError [t])).
  Proof.
    intros H e m. destruct state_of_history as (_ & _ & (S & _) & _). unfold acceptor_receive_message.
    rewrite (S H). eexists. reflexivity.
  Qed.

  Lemma aborted_iff : is_aborted a = existsb peer_aborted h || signature_failed h.
  Proof.
    destruct state_of_history as (_ & _ & _ & (S1 & S2)). unfold is_aborted.
    destruct (existsb peer_aborted h || signature_failed h).
    - rewrite (S1 eq_refl). reflexivity.
    - destruct (a_state a); try reflexivity. discriminate (S2 eq_refl).
  Qed.

  Lemma aborted_final : existsb peer_aborted h || signature_failed h = true ->
    (forall e m, exists t, acceptor_receive_message cr e a (Hello m) = (a, Raise (ValueError [t]))) /\
    (forall e m, exists t, acceptor_receive_message cr e a (Authenticate m) = (a, Raise (ValueError [t]))).
  Proof.
    intros H. destruct state_of_history as ((N1 & _) & (N2 & _) & _ & (S1 & _)). specialize (S1 H).
    split; [apply order_hello|apply order_authenticate].
    - destruct (hello_allowed h); [|reflexivity]. rewrite (N1 eq_refl) in S1. discriminate.
    - destruct (authenticate_allowed h); [|reflexivity]. rewrite (N2 eq_refl) in S1. discriminate.
  Qed.

  (** Conversely, grounds suffice. *)
  Lemma justified_welcome e msg realm authid authrole :
    (match msg with Hello _ => hello_allowed h = true | Authenticate _ => authenticate_allowed h = true | _ => False end) ->
    justified cr ha h e msg realm authid authrole ->
    exists w, snd (acceptor_receive_message cr e a msg) = Ok (Some (Welcome w)) /\
      we_session w = PyInt sid /\ we_authid w = Some authid /\ we_authrole w = Some authrole /\
      acceptor_details (fst (acceptor_receive_message cr e a msg)) = Ok (mkDetails (PyInt sid) realm (Some authid) (Some authrole)).
  Proof.
    intros H J. destruct state_of_history as ((N1 & _) & (N2 & _) & _).
    destruct I as [(A1 & A2 & A3) _ M _ _]. unfold acceptor_receive_message.
    destruct J as [m J1|m r J1 J2 J3|e0 m0 c0 m r extra k pub signed J1 J2 J3 J4 J5 J6 J7 J8
      |e0 m0 c0 m authid authrole secret salted text J1 J2 J3 J4 J5 J6|e0 m0 c0 m r J1 J2 J3 J4].
    - rewrite (N1 H). unfold receive_hello. rewrite (N1 H), A1, J1. cbn. rewrite A2. eexists. repeat split.
    - rewrite (N1 H). unfold receive_hello. rewrite (N1 H), A1, J1, J2. cbn [negb is_method String.eqb Ascii.eqb Bool.eqb].
      rewrite J3. cbn. rewrite A2. eexists. repeat split.
    - rewrite (N2 H). unfold receive_authenticate. rewrite (N2 H).
      destruct (M (N2 H)) as (e1 & m1 & c1 & L & R). rewrite J2 in L. injection L as <- <- <-.
      destruct R as [e0 m0 c0 extra' k' r' M1 M2 M3 M4 M5 M6 M7 M8 M9 M10
               | e0 m0 c0 authid authrole secret salted text M1 M2 M3 M4 M5 M6 M7 M8 M9 M10
               | e0 m0 c0 M1 M2 M3 M4 M5]; try congruence.
      rewrite M5 in J4. injection J4 as ->. rewrite J5 in M6. injection M6 as <-.
      rewrite M1. cbn [negb is_method String.eqb Ascii.eqb Bool.eqb]. rewrite M7, J6. cbn [bind].
      rewrite (proj2 (cs_verify_iff cr (au_signature m) pub)).
      + rewrite M9, M4. rewrite J7 in M8. injection M8 as ->. cbn. rewrite A2. eexists. repeat split.
      + destruct J8 as (L1 & sig & L2 & L3 & L4). split; [exact L1|]. exists sig, signed. auto.
    - rewrite (N2 H). unfold receive_authenticate. rewrite (N2 H).
      destruct (M (N2 H)) as (e1 & m1 & c1 & L & R). rewrite J2 in L. injection L as <- <- <-.
      destruct R as [e0 m0 c0 extra' k' r' M1 M2 M3 M4 M5 M6 M7 M8 M9 M10
               | e0 m0 c0 authid' authrole' secret' salted' text' M1 M2 M3 M4 M5 M6 M7 M8 M9 M10
               | e0 m0 c0 M1 M2 M3 M4 M5]; try congruence.
      rewrite J4 in M5. injection M5 as <- <- <- <-. rewrite M9 in J5. cbn in J5. injection J5 as ->.
      rewrite M1. cbn [negb is_method String.eqb Ascii.eqb Bool.eqb]. rewrite M7, M8.
      rewrite (proj2 (cra_verify_iff cr (au_signature m) text (encode_str secret)) J6).
      rewrite M6, M4. cbn. rewrite A2. eexists. repeat split.
    - rewrite (N2 H). unfold receive_authenticate. rewrite (N2 H).
      destruct (M (N2 H)) as (e1 & m1 & c1 & L & R). rewrite J2 in L. injection L as <- <- <-.
      destruct R as [e0 m0 c0 extra' k' r' M1 M2 M3 M4 M5 M6 M7 M8 M9 M10
               | e0 m0 c0 authid authrole secret salted text M1 M2 M3 M4 M5 M6 M7 M8 M9 M10
               | e0 m0 c0 M1 M2 M3 M4 M5]; try congruence.
      rewrite M1. cbn [negb is_method String.eqb Ascii.eqb Bool.eqb]. rewrite M4, J4. cbn. rewrite A2. eexists. repeat split.
  Qed.
End Reached.

Lemma times_le_1 {E} (p : E -> bool) (e : E) h : (times p h <= 1)%nat -> (p e = true -> existsb p h = false) ->
  (times p (e :: h) <= 1)%nat.
Proof.
  intros H N. unfold times in *. cbn [filter]. destruct (p e); [|exact H]. cbn [length].
  assert (Z : filter p h = []).
  { specialize (N eq_refl). clear H. induction h as [|x h IH]; [reflexivity|]. cbn in N |- *.
    destruct (p x); [discriminate|]. auto. }
  rewrite Z. cbn. lia.
Qed.

Lemma one_welcome cr roles ha sid ops : (times sent_welcome (snd (arun cr roles ha sid ops)) <= 1)%nat.
Proof.
  induction ops as [|[e msg] ops IH] using rev_ind; [cbn; lia|].
  rewrite arun_snoc. pose proof (AInv_run cr roles ha sid ops) as I. destruct (arun cr roles ha sid ops) as [a h].
  cbn [fst snd] in *. unfold astep. cbn [fst snd].
  destruct (acceptor_receive_message cr e a msg) as [a' r] eqn:E. cbn [snd]. apply times_le_1; [exact IH|].
  intros H. destruct (existsb sent_welcome h) eqn:X; [|reflexivity].
  destruct (after_welcome cr roles ha sid a h I X e msg) as [t Y]. rewrite E in Y. injection Y as -> ->. discriminate H.
Qed.

Lemma one_challenge cr roles ha sid ops : (times sent_challenge (snd (arun cr roles ha sid ops)) <= 1)%nat.
Proof.
  induction ops as [|[e msg] ops IH] using rev_ind; [cbn; lia|].
  rewrite arun_snoc. pose proof (AInv_run cr roles ha sid ops) as I. destruct (arun cr roles ha sid ops) as [a h].
  cbn [fst snd] in *. unfold astep. cbn [fst snd].
  pose proof (step_outcome cr roles ha sid a h e msg I) as O.
  destruct (acceptor_receive_message cr e a msg) as [a' r] eqn:E. cbn [fst snd] in *. apply times_le_1; [exact IH|].
  destruct I as [_ S _ _ _]. cbn [sent_challenge ae_out].
  destruct O; cbn; intros X; try discriminate. rewrite H in S. cbn in S. tauto.
Qed.

Lemma established_cons e h : established (e :: h) =
  match welcome_of e, ae_msg e, latest challenge_of h with
  | Some w, Hello m, _ => Some (he_realm m, w)
  | Some w, Authenticate _, Some (_, m0, _) => Some (he_realm m0, w)
  | _, _, _ => established h
  end.
Proof. reflexivity. Qed.

Lemma details_established cr roles ha sid ops :
  a_details (fst (arun cr roles ha sid ops)) =
  option_map (fun p => mkDetails (we_session (snd p)) (fst p) (we_authid (snd p)) (we_authrole (snd p)))
    (established (snd (arun cr roles ha sid ops))).
Proof.
  induction ops as [|[e msg] ops IH] using rev_ind; [reflexivity|].
  rewrite arun_snoc. pose proof (AInv_run cr roles ha sid ops) as I. destruct (arun cr roles ha sid ops) as [a h].
  cbn [fst snd] in *. unfold astep. cbn [fst snd].
  pose proof (step_outcome cr roles ha sid a h e msg I) as O.
  destruct (acceptor_receive_message cr e a msg) as [a' r] eqn:E. cbn [fst snd] in *.
  rewrite established_cons.
  destruct O as [msg a' w realm authid authrole OS J W1 W2 W3 W4 W5 S' D' _ | m a' c OS S' R D' _ _
    | m a' args OS (B1 & B2 & _) | m args OS OM | m OS OM | m OS | msg OS OM | msg a' x (B1 & B2 & _) _];
    cbn [welcome_of ae_out auth_abort]; try (rewrite <- IH; cbn; congruence).
  rewrite D'. cbn [ae_msg].
  inversion J as [m J1|m r0 J1 J2 J3|e0 m0 c0 m r0 extra k pub signed J1 J2 J3 J4 J5 J6 J7 J8
      |e0 m0 c0 m aid arole secret salted text J1 J2 J3 J4 J5 J6|e0 m0 c0 m r0 J1 J2 J3 J4]; subst msg;
    rewrite ?J2; cbn [option_map fst snd]; unfold the_details; congruence.
Qed.
