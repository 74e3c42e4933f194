(** * HandshakeCodec: handshakes over the concrete codecs; the WAMP-CRA challenge text. *)
From Coq Require Import String Ascii List ZArith Bool Lia.
From Verif Require Import PyBase Rawsocket Messages Parse Serializer SpecSchema SerializerFacts Encoding EncodingFacts Auth AuthFacts.
From Verif Require Import SpecHistory SpecAcceptor AcceptorFacts Joiner Acceptor Handshake HandshakeFacts.
From Verif Require Import Utf8 Utf8Facts CodecBase SpecCodec CodecFacts Json JsonFacts Float FloatFacts Codecs DomainFacts CodecsFacts SpecE2E.
Import ListNotations.
Local Open Scope Z_scope.

(** ** Portable values *)
Lemma text_portable s : short_text s -> everywhere portable_here (VStr s).
Proof. intros [A B]. split; [|exact I]. split; [apply utf8_valid_str; exact A|split; assumption]. Qed.
Lemma ascii_decode b : is_ascii b = true -> utf8_decode b = Some (map byte_Z b).
Proof.
  unfold is_ascii. induction b as [|a b IH]; [reflexivity|]. cbn [forallb map]. intros H. apply andb_true_iff in H as [H1 H2].
  unfold utf8_decode in *. cbn [decode_points]. rewrite (IH H2), H1. reflexivity.
Qed.
Lemma ascii_short s : is_ascii (encode_str s) = true -> Z.of_nat (String.length s) < 2 ^ 32 -> short_text s.
Proof. intros A L. split; [|exact L]. unfold unicode, utf8_valid. rewrite (ascii_decode _ A). reflexivity. Qed.

Definition client_roles (roles : option dict) : dict := match roles with Some r => r | None => CLIENT_ROLES end.
Definition router_roles (roles : option dict) : dict := match roles with Some r => r | None => ROUTER_ROLES end.

Ltac here := split; [exact I|cbn; lia].
Lemma no_features_small : everywhere portable_here no_features /\ depth no_features = 1%nat.
Proof. split; [|reflexivity]. vm_compute. repeat split; repeat constructor; cbn; tauto. Qed.
Lemma default_small : small CLIENT_ROLES /\ small ROUTER_ROLES.
Proof.
  split; (split; [|vm_compute; repeat constructor]); vm_compute; repeat split; repeat constructor; cbn; intros H; intuition congruence.
Qed.
Lemma client_small roles : roles_ok roles -> small (client_roles roles).
Proof. destruct roles; [intros [_ A]; exact A|intros _; apply default_small]. Qed.
Lemma router_small roles : roles_ok roles -> small (router_roles roles).
Proof. destruct roles; [intros [_ A]; exact A|intros _; apply default_small]. Qed.

Lemma portable_intro l : Forall (everywhere portable_here) l -> Z.of_nat (length l) < 2 ^ 32 -> Forall (fun x => (depth x <= 510)%nat) l ->
  portable (VList l).
Proof.
  intros A B C. split.
  - apply everywhere_list. split; [split; [exact I|exact B]|exact A].
  - induction C as [|x l Hx C IH]; [apply Nat.le_0_l|]. inversion A; subst. cbn [length] in B. specialize (IH H2 ltac:(lia)).
    change (depth (VList (x :: l))) with (Nat.max (S (depth x)) (depth (VList l))). lia.
Qed.
Lemma dict_intro d n : NoDup (map fst d) -> Forall str_key (map fst d) -> Z.of_nat (length d) < 2 ^ 32 ->
  Forall (fun kv => everywhere portable_here (fst kv) /\ everywhere portable_here (snd kv) /\ (depth (snd kv) <= n)%nat) d ->
  everywhere portable_here (VDict d) /\ (depth (VDict d) <= S n)%nat.
Proof.
  intros N K L F. split.
  - apply everywhere_dict. split; [split; [exact I|auto]|]. eapply Forall_impl; [|exact F]. cbn. intros [k x]. cbn. tauto.
  - clear N L. induction F as [|[k x] d [A [B C]] F IH]; [apply Nat.le_0_l|]. cbn [map fst] in K. inversion K; subst. specialize (IH H2).
    cbn [fst snd] in *. change (depth (VDict ((k, x) :: d))) with (Nat.max (Nat.max (S (depth k)) (S (depth x))) (depth (VDict d))).
    destruct k; try contradiction. match goal with |- context [depth (VStr ?q)] => change (depth (VStr q)) with O end. lia.
Qed.

(** ** The messages of a handshake are carried by all three codecs *)
Ltac nodup := cbn; repeat constructor; cbn; intros H; intuition congruence.
Ltac entries := cbn [map fst]; repeat constructor; cbn [fst snd]; try (apply text_portable); try assumption; try (vm_compute; repeat split; fail).

Lemma key_portable s : (String.length s < 100)%nat -> is_ascii (encode_str s) = true -> everywhere portable_here (VStr s).
Proof. intros L A. apply text_portable, ascii_short; [exact A|lia]. Qed.
Ltac bounded := first [assumption|apply Nat.le_0_l|lia|cbn; lia].
Ltac key := apply key_portable; [cbn; lia|reflexivity].

Lemma int_portable z : - 2 ^ 63 <= z < 2 ^ 64 -> everywhere portable_here (VInt z).
Proof. intros H. split; [split; [exact I|exact H]|exact I]. Qed.

Section Codec.
  Variables (c : codec) (C : is_python_codec c).

  Lemma carries_of m : wf_message m -> portable (VList (marshal m)) -> carries c m.
  Proof. intros W P. split; [exact W|]. apply portable_round_trips; assumption. Qed.

  Lemma small_in d : small d -> everywhere portable_here (VDict d) /\ (depth (VDict d) <= 500)%nat.
  Proof. auto. Qed.

  Lemma carries_hello realm authid method extra roles : short_text realm -> short_text authid -> short_text method -> small extra -> roles_ok roles ->
    carries c (Hello (hello_with realm authid method extra roles)).
  Proof.
    intros R A M E RO. apply carries_of.
    - unfold hello_with. cbn. destruct roles as [r|]; [exact (proj1 RO)|]. exact (wf_hello_default realm authid method extra).
    - destruct (client_small roles RO) as [R1 R2]. destruct E as [E1 E2].
      unfold hello_with. fold (client_roles roles). cbn [marshal marshal_hello he_roles he_authid he_authmethods he_authextra he_realm].
      unfold marshal_hello. cbn [he_roles he_authid he_authmethods he_authextra he_realm].
      set (d := sset _ _ _).
      change d with [(VStr "roles", VDict (client_roles roles)); (VStr "authid", VStr authid); (VStr "authmethods", VList [VStr method]);
        (VStr "authextra", VDict extra)]. clear d.
      set (d := [_; _; _; _] : dict).
      assert (D : everywhere portable_here (VDict d) /\ (depth (VDict d) <= 501)%nat).
      { apply dict_intro; [nodup|repeat constructor|cbn; lia|]. unfold d.
        assert (ML : everywhere portable_here (VList [VStr method])).
        { apply everywhere_list. split; [split; [exact I|cbn; lia]|]. constructor; [apply text_portable; exact M|constructor]. }
        repeat apply Forall_cons; try apply Forall_nil; cbn [fst snd]; (split; [key|]); (split; [|bounded]); auto using text_portable. }
      apply portable_intro; [|cbn; lia|].
      + repeat apply Forall_cons; try apply Forall_nil; [apply int_portable; vm_compute; intuition congruence|apply text_portable; assumption|apply D].
      + repeat apply Forall_cons; try apply Forall_nil; bounded.
  Qed.

  Lemma carries_welcome sroles sid aid arole method : roles_ok sroles -> 1 <= sid <= 2 ^ 53 -> short_text aid -> short_text arole ->
    (match method with Some m => short_text m | None => True end) -> carries c (welcome_msg sroles sid aid arole method).
  Proof.
    intros RO S A R M. apply carries_of.
    - unfold welcome_msg. cbn. split; [exists sid; auto|]. destruct sroles as [r|]; [exact (proj1 RO)|]. exact (proj2 (wf_welcome_default sid aid arole method S)).
    - destruct (router_small sroles RO) as [R1 R2].
      unfold welcome_msg. fold (router_roles sroles). cbn [marshal]. unfold marshal_welcome. cbn [we_roles we_authid we_authrole we_authmethod we_authextra we_session].
      assert (NE : everywhere portable_here (VDict [])) by (vm_compute; repeat split; repeat constructor).
      apply portable_intro.
      + repeat apply Forall_cons; try apply Forall_nil; [apply int_portable; vm_compute; intuition congruence|apply int_portable; cbn [pyint_val]; lia|].
        destruct method as [m|].
        * refine (proj1 (dict_intro [(VStr "roles", VDict (router_roles sroles)); (VStr "authid", VStr aid); (VStr "authrole", VStr arole); (VStr "authmethod", VStr m); (VStr "authextra", VDict [])] 500 _ _ _ _)); [nodup|repeat constructor|cbn; lia|].
          repeat apply Forall_cons; try apply Forall_nil; cbn [fst snd]; (split; [key|]); (split; [|bounded]); auto using text_portable.
        * refine (proj1 (dict_intro [(VStr "roles", VDict (router_roles sroles)); (VStr "authid", VStr aid); (VStr "authrole", VStr arole); (VStr "authextra", VDict [])] 500 _ _ _ _)); [nodup|repeat constructor|cbn; lia|].
          repeat apply Forall_cons; try apply Forall_nil; cbn [fst snd]; (split; [key|]); (split; [|bounded]); auto using text_portable.
      + cbn; lia.
      + repeat apply Forall_cons; try apply Forall_nil; [bounded|bounded|].
        destruct method as [m|].
        * apply Nat.le_trans with 501%nat; [|lia]. refine (proj2 (dict_intro [(VStr "roles", VDict (router_roles sroles)); (VStr "authid", VStr aid); (VStr "authrole", VStr arole); (VStr "authmethod", VStr m); (VStr "authextra", VDict [])] 500 _ _ _ _)); [nodup|repeat constructor|cbn; lia|].
          repeat apply Forall_cons; try apply Forall_nil; cbn [fst snd]; (split; [key|]); (split; [|bounded]); auto using text_portable.
        * apply Nat.le_trans with 501%nat; [|lia]. refine (proj2 (dict_intro [(VStr "roles", VDict (router_roles sroles)); (VStr "authid", VStr aid); (VStr "authrole", VStr arole); (VStr "authextra", VDict [])] 500 _ _ _ _)); [nodup|repeat constructor|cbn; lia|].
          repeat apply Forall_cons; try apply Forall_nil; cbn [fst snd]; (split; [key|]); (split; [|bounded]); auto using text_portable.
  Qed.

  Lemma carries_text_dict m z s d : marshal m = [VInt z; VStr s; VDict d] -> wf_message m -> 0 <= z < 256 -> short_text s -> small d -> carries c m.
  Proof.
    intros E W Z0 T [D1 D2]. apply carries_of; [exact W|]. rewrite E. apply portable_intro; [|cbn; lia|].
    - repeat apply Forall_cons; try apply Forall_nil; [apply int_portable; lia|apply text_portable; exact T|exact D1].
    - repeat apply Forall_cons; try apply Forall_nil; bounded.
  Qed.
  Lemma small_nil : small [].
  Proof. split; [vm_compute; repeat split; repeat constructor|apply Nat.le_0_l]. Qed.
  Lemma small_challenge s : short_text s -> small [(VStr "challenge", VStr s)].
  Proof.
    intros T. destruct (dict_intro [(VStr "challenge", VStr s)] 0) as [A B]; [nodup|repeat constructor|cbn; lia| |split; [exact A|lia]].
    repeat apply Forall_cons; try apply Forall_nil; cbn [fst snd]; (split; [key|]); (split; [|bounded]); auto using text_portable.
  Qed.
  Lemma carries_challenge method extra : short_text method -> small extra -> carries c (Challenge (mkChallenge method extra)).
  Proof. intros. eapply carries_text_dict; [reflexivity|exact I|vm_compute; intuition congruence|assumption|assumption]. Qed.
  Lemma carries_authenticate s : short_text s -> carries c (Authenticate (mkAuthenticate s [])).
  Proof. intros. eapply carries_text_dict; [reflexivity|exact I|vm_compute; intuition congruence|assumption|apply small_nil]. Qed.
  Lemma carries_abort : carries c (auth_abort None).
  Proof.
    apply carries_of; [exact I|]. split; [|vm_compute; repeat constructor]. vm_compute. repeat split; repeat constructor; congruence.
  Qed.
End Codec.

(** ** The WAMP-CRA challenge *)
Lemma str_json s : utf8_valid (encode_str s) = true -> everywhere json_here (VStr s).
Proof. intros H. split; [|exact I]. split; [apply utf8_valid_str; exact H|apply unicode_json; exact H]. Qed.
Lemma hex_valid b : utf8_valid (encode_str (decode_str (hexlify b))) = true.
Proof. rewrite encode_decode_str. unfold utf8_valid. rewrite ascii_decode by apply hexlify_ascii. reflexivity. Qed.
Lemma data_json nonce now sid aid arole provider : Z.abs sid < 10 ^ 4300 -> utf8_valid (encode_str now) = true ->
  utf8_valid (encode_str aid) = true -> utf8_valid (encode_str arole) = true -> utf8_valid (encode_str provider) = true ->
  json_value (VDict (wampcra_challenge_data nonce now sid aid arole provider)).
Proof.
  intros S N A R P. apply everywhere_dict. split.
  - split; [exact I|]. split; [nodup|repeat constructor].
  - repeat apply Forall_cons; try apply Forall_nil; cbn [fst snd]; (split; [apply str_json; reflexivity|]);
      try (apply str_json; solve [assumption|apply hex_valid|reflexivity]). split; [split; [exact I|exact S]|exact I].
Qed.
Lemma js_ascii v b : json_value v -> dumps python_json v = Ok b -> is_ascii b = true.
Proof.
  intros W D. destruct (js_good_all python_floats python_floats_ok v W) as (t & E & _ & A & _).
  cbn [python_json dumps json] in D. unfold python_json in D. cbn [dumps json] in D. unfold js_dumps in D. rewrite E in D. injection D as <-.
  unfold is_ascii. rewrite forallb_forall. intros x H. apply in_map_iff in H as (z & <- & H). unfold ascii_text in A. rewrite Forall_forall in A. specialize (A z H). cbn in A.
  rewrite byte_Z_of by lia. apply Z.ltb_lt. lia.
Qed.
Lemma challenge_text nonce now sid aid arole provider : Z.abs sid < 10 ^ 4300 -> utf8_valid (encode_str now) = true ->
  utf8_valid (encode_str aid) = true -> utf8_valid (encode_str arole) = true -> utf8_valid (encode_str provider) = true ->
  exists text, generate_wampcra_challenge (dumps python_json) nonce now sid aid arole provider = Ok text /\
    is_ascii (encode_str text) = true /\
    loads python_json (encode_str text) = Ok (VDict (wampcra_challenge_data nonce now sid aid arole provider)).
Proof.
  intros S N A R P. pose proof (data_json nonce now sid aid arole provider S N A R P) as W.
  destruct (python_json_round_trip _ W) as (b & D & _ & L). unfold generate_wampcra_challenge. rewrite D. cbn [bind].
  eexists. split; [reflexivity|]. rewrite encode_decode_str. split; [exact (js_ascii _ _ W D)|exact L].
Qed.
Lemma challenge_says nonce now sid authid authrole provider : Z.abs sid < 10 ^ 4300 ->
  Forall (fun s => utf8_valid (encode_str s) = true) [now; authid; authrole; provider] ->
  exists text, generate_wampcra_challenge (dumps python_json) nonce now sid authid authrole provider = Ok text /\
    is_ascii (encode_str text) = true /\
    exists d, loads python_json (encode_str text) = Ok (VDict d) /\ length d = 7%nat /\
      sget "nonce" d = Some (VStr (decode_str (hexlify nonce))) /\ sget "authprovider" d = Some (VStr provider) /\
      sget "authid" d = Some (VStr authid) /\ sget "authrole" d = Some (VStr authrole) /\ sget "authmethod" d = Some (VStr "wampcra") /\
      sget "session" d = Some (VInt sid) /\ sget "timestamp" d = Some (VStr now).
Proof.
  intros B F. repeat match goal with H : Forall _ (_ :: _) |- _ => let X := fresh in inversion H as [|? ? X ?]; subst; clear H end.
  destruct (challenge_text nonce now sid authid authrole provider) as (t & G & A & L); try assumption. clear B.
  exists t. split; [exact G|]. split; [exact A|]. eexists. split; [exact L|]. repeat split.
Qed.
Lemma hexlify_inj a b : hexlify a = hexlify b -> a = b.
Proof. intros H. pose proof (unhex_hexlify a). rewrite H, unhex_hexlify in H0. congruence. Qed.
Lemma decode_str_inj a b : decode_str a = decode_str b -> a = b.
Proof. intros H. rewrite <- (encode_decode_str a), H, encode_decode_str. reflexivity. Qed.

Lemma text_fields nonce now sid aid arole provider nonce' now' sid' aid' arole' provider' text :
  Z.abs sid < 10 ^ 4300 -> Z.abs sid' < 10 ^ 4300 ->
  Forall (fun s => utf8_valid (encode_str s) = true) [now; aid; arole; provider; now'; aid'; arole'; provider'] ->
  generate_wampcra_challenge (dumps python_json) nonce now sid aid arole provider = Ok text ->
  generate_wampcra_challenge (dumps python_json) nonce' now' sid' aid' arole' provider' = Ok text ->
  nonce = nonce' /\ now = now' /\ sid = sid' /\ aid = aid' /\ arole = arole' /\ provider = provider'.
Proof.
  intros B B' F G G'.
  repeat match goal with H : Forall _ (_ :: _) |- _ => let X := fresh in inversion H as [|? ? X ?]; subst; clear H end.
  destruct (challenge_text nonce now sid aid arole provider) as (t & G1 & _ & L); try assumption.
  destruct (challenge_text nonce' now' sid' aid' arole' provider') as (t' & G1' & _ & L'); try assumption.
  assert (t = text) by congruence. assert (t' = text) by congruence. subst t t'. clear G G' G1 G1' B B'.
  rewrite L in L'. unfold wampcra_challenge_data in L'. assert (Q : forall a b : dict, Ok (VDict a) = Ok (VDict b) -> a = b) by congruence.
  apply Q in L'. repeat match goal with H : _ :: _ = _ :: _ |- _ => let X := fresh in assert (X := f_equal (@tl _) H); cbn [tl] in X; apply (f_equal (@hd_error _)) in H; cbn [hd_error] in H end.
  assert (P : forall (k : val) a b, Some (k, VStr a) = Some (k, VStr b) -> a = b) by congruence.
  assert (PZ : forall (k : val) a b, Some (k, VInt a) = Some (k, VInt b) -> a = b) by congruence.
  repeat split; solve [eapply P; eassumption|eapply PZ; eassumption|eapply hexlify_inj, decode_str_inj, P; eassumption].
Qed.

Lemma cra_one_challenge cr e m w e0 m0 c0 aid arole secret salted roles ha sid ops e' w' e0' m0' c0' aid' arole' secret' salted' roles' ha' sid' ops' :
  latest challenge_of (snd (arun cr roles ha sid ops)) = Some (e0, m0, c0) ->
  latest challenge_of (snd (arun cr roles' ha' sid' ops')) = Some (e0', m0', c0') ->
  first_method m0 = VStr "wampcra" -> first_method m0' = VStr "wampcra" ->
  e_auth e0 (WAMPCRARequest (he_realm m0) (he_authid m0) (he_authextra m0)) = Accept (WAMPCRAResponse aid arole secret salted) ->
  e_auth e0' (WAMPCRARequest (he_realm m0') (he_authid m0') (he_authextra m0')) = Accept (WAMPCRAResponse aid' arole' secret' salted') ->
  e_json_dumps e0 = dumps python_json -> e_json_dumps e0' = dumps python_json ->
  Forall (fun s => utf8_valid (encode_str s) = true) [e_now e0; aid; arole; e_now e0'; aid'; arole'] ->
  Z.abs sid < 10 ^ 4300 -> Z.abs sid' < 10 ^ 4300 ->
  snd (acceptor_receive_message cr e (fst (arun cr roles ha sid ops)) (Authenticate m)) = Ok (Some (Welcome w)) ->
  snd (acceptor_receive_message cr e' (fst (arun cr roles' ha' sid' ops')) (Authenticate m)) = Ok (Some (Welcome w')) ->
  (e_random e0 = e_random e0' /\ e_now e0 = e_now e0' /\ sid = sid' /\ aid = aid' /\ arole = arole' /\ secret = secret') \/
  exists text text', ch_extra c0 = [(VStr "challenge", VStr text)] /\ ch_extra c0' = [(VStr "challenge", VStr text')] /\
    (secret, text) <> (secret', text') /\
    hmac_sha256 cr (encode_str secret) (encode_str text) = hmac_sha256 cr (encode_str secret') (encode_str text').
Proof.
  intros L L' F F' A A' J J' V B B' H H'.
  pose proof (AInv_run cr roles ha sid ops) as Inv. pose proof (AInv_run cr roles' ha' sid' ops') as Inv'.
  destruct (arun cr roles ha sid ops) as [a h]. destruct (arun cr roles' ha' sid' ops') as [a' h']. cbn [fst snd] in *.
  destruct (cra_bound _ _ _ _ _ _ _ _ _ _ _ _ Inv L F H) as (x1 & x2 & x3 & x4 & text & P1 & P2 & P3 & P4).
  destruct (cra_bound _ _ _ _ _ _ _ _ _ _ _ _ Inv' L' F' H') as (y1 & y2 & y3 & y4 & text' & Q1 & Q2 & Q3 & Q4).
  rewrite A in P1. injection P1 as <- <- <- <-. rewrite A' in Q1. injection Q1 as <- <- <- <-. rewrite J in P3. rewrite J' in Q3.
  assert (HM : hmac_sha256 cr (encode_str secret) (encode_str text) = hmac_sha256 cr (encode_str secret') (encode_str text')) by congruence.
  destruct (string_dec text text') as [<-|N]; [destruct (string_dec secret secret') as [<-|N]|].
  - left. repeat match goal with H : Forall _ (_ :: _) |- _ => let X := fresh in inversion H as [|? ? X ?]; subst; clear H end.
    assert (V : Forall (fun s => utf8_valid (encode_str s) = true) [e_now e0; aid; arole; "dynamic"%string; e_now e0'; aid'; arole'; "dynamic"%string])
      by (repeat constructor; assumption).
    destruct (text_fields _ _ _ _ _ _ _ _ _ _ _ _ text B B' V P3 Q3) as (? & ? & ? & ? & ? & _).
    clear B B'. repeat split; assumption.
  - right. exists text, text. repeat split; try assumption. congruence.
  - right. exists text, text'. repeat split; try assumption. congruence.
Qed.

(** ** Handshakes *)
Lemma b64_text b : (length b < 1000)%nat -> short_text (decode_str (b64encode b)).
Proof.
  intros L. apply ascii_short; [rewrite encode_decode_str; apply b64encode_ascii|].
  assert (B : (length (b64encode b) <= 4 * length b + 4)%nat).
  { clear L. remember (length b) as n eqn:E. revert b E. induction n as [n IH] using lt_wf_ind. intros b ->.
    destruct b as [|x [|y [|z b]]]; cbn [b64encode length]; try lia. specialize (IH (length b) ltac:(cbn; lia) b eq_refl). lia. }
  assert (K : forall l, String.length (decode_str l) = length l).
  { induction l as [|x l IH]; [reflexivity|]. cbn. f_equal. exact IH. }
  rewrite K. lia.
Qed.

Lemma hex_text b : (length b < 1000)%nat -> short_text (decode_str (hexlify b)).
Proof.
  intros L. apply ascii_short; [rewrite encode_decode_str; apply hexlify_ascii|].
  assert (K : forall l, String.length (decode_str l) = length l).
  { induction l as [|x l IH]; [reflexivity|]. cbn. f_equal. exact IH. }
  rewrite K, hexlify_length. lia.
Qed.
Lemma literal_text s : (String.length s < 100)%nat -> is_ascii (encode_str s) = true -> short_text s.
Proof. intros. apply ascii_short; [assumption|lia]. Qed.
Ltac lit := apply literal_text; [cbn; lia|reflexivity].

Section E2E.
  Variables (cr : crypto) (c : codec) (e1 e2 : env) (roles sroles : option dict) (sid : Z) (realm authid : string).
  Hypothesis C : is_python_codec c.

  Lemma py_none cl : handshake_data realm (cl_authid cl) (cl_extra cl) roles sroles sid -> short_text (cl_method cl) ->
    agreed (handshake cr c (cl_authenticate cl) e1 e2 roles (joiner_with realm cl) (acceptor_init sroles false sid))
      (mkDetails (PyInt sid) realm (Some "anonymous"%string) (Some "anonymous"%string)).
  Proof.
    intros (H1 & H2 & H3 & H4 & H5 & H6) M. apply e2e_none; [apply carries_hello; assumption|]. apply carries_welcome; try assumption; lit.
  Qed.
  Lemma py_anonymous extra r : handshake_data realm authid (extra_or_empty extra) roles sroles sid ->
    e_auth e1 (AnonymousRequest realm (Some authid) (Some (extra_or_empty extra))) = Accept r ->
    short_text (resp_authid r) -> short_text (resp_authrole r) ->
    let cl := anonymous_client authid extra in
    agreed (handshake cr c (cl_authenticate cl) e1 e2 roles (joiner_with realm cl) (acceptor_init sroles true sid))
      (mkDetails (PyInt sid) realm (Some (resp_authid r)) (Some (resp_authrole r))).
  Proof.
    intros (H1 & H2 & H3 & H4 & H5 & H6) A T1 T2 cl. apply e2e_anonymous; [exact A|apply carries_hello; try assumption; lit|].
    apply carries_welcome; try assumption; lit.
  Qed.
  Lemma py_ticket ticket extra : handshake_data realm authid (extra_or_empty extra) roles sroles sid -> short_text ticket ->
    let cl := ticket_client authid ticket extra in
    let result := handshake cr c (cl_authenticate cl) e1 e2 roles (joiner_with realm cl) (acceptor_init sroles true sid) in
    match e_auth e2 (TicketRequest realm (Some authid) (Some (extra_or_empty extra)) ticket) with
    | Accept r => short_text (resp_authid r) -> short_text (resp_authrole r) ->
                  agreed result (mkDetails (PyInt sid) realm (Some (resp_authid r)) (Some (resp_authrole r)))
    | Reject _ => refused result
    end.
  Proof.
    intros (H1 & H2 & H3 & H4 & H5 & H6) T cl result.
    destruct (e2e_ticket cr c e1 e2 roles sroles sid realm authid ticket extra) as [X Y];
      [apply carries_hello; try assumption; lit|apply carries_challenge; [exact C|lit|apply small_nil]|apply carries_authenticate; assumption|].
    destruct (e_auth e2 _) as [r|args] eqn:A.
    - intros T1 T2. apply X; [reflexivity|]. apply carries_welcome; try assumption; exact I.
    - apply (Y args eq_refl). apply carries_abort; exact C.
  Qed.
  Lemma py_wampcra my_secret extra aid arole secret salted :
    handshake_data realm authid (extra_or_empty extra) roles sroles sid ->
    e_auth e1 (WAMPCRARequest realm (Some authid) (Some (extra_or_empty extra))) = Accept (WAMPCRAResponse aid arole secret salted) ->
    short_text aid -> short_text arole -> utf8_valid (encode_str (e_now e1)) = true -> e_json_dumps e1 = dumps python_json ->
    (forall k m, length (hmac_sha256 cr k m) = 32%nat) ->
    exists text, generate_wampcra_challenge (dumps python_json) (e_random e1) (e_now e1) sid aid arole "dynamic" = Ok text /\
    (Z.of_nat (String.length text) < 2 ^ 32 ->
     let cl := wampcra_client cr authid my_secret extra in
     let result := handshake cr c (cl_authenticate cl) e1 e2 roles (joiner_with realm cl) (acceptor_init sroles true sid) in
     (my_secret = secret -> agreed result (mkDetails (PyInt sid) realm (Some aid) (Some arole))) /\
     (hmac_sha256 cr (encode_str my_secret) (encode_str text) <> hmac_sha256 cr (encode_str secret) (encode_str text) -> refused result)).
  Proof.
    intros (H1 & H2 & H3 & H4 & H5 & H6) A T1 T2 N J HL.
    destruct (challenge_text (e_random e1) (e_now e1) sid aid arole "dynamic") as (text & G & As & _);
      [apply Z.le_lt_trans with (10 ^ 20); [lia|apply Z.pow_lt_mono_r; lia]|exact N|apply T1|apply T2|reflexivity|].
    exists text. split; [exact G|]. intros TL cl result. rewrite <- J in G.
    destruct (e2e_wampcra cr c e1 e2 roles sroles sid realm authid my_secret extra aid arole secret salted text A G (proj1 (ascii_short text As TL))) as [X Y];
      [apply carries_hello; try assumption; lit|apply carries_challenge; [exact C|lit|]| |].
    - apply small_challenge. apply ascii_short; assumption.
    - apply carries_authenticate; [exact C|]. apply b64_text. rewrite HL. lia.
    - split; [intros E; apply X; [exact E|]; apply carries_welcome; try assumption; exact I|]. intros NE. apply (Y NE). apply carries_abort; exact C.
  Qed.
  Lemma py_cryptosign priv seed extra cl after r :
    ed25519_correct cr -> cryptosign_client cr authid priv extra = Ok (cl, after) -> sget "pubkey" (extra_or_empty extra) = None ->
    unhexlify_str priv = Ok seed -> handshake_data realm authid (cl_extra cl) roles sroles sid ->
    e_auth e1 (CryptoSignRequest realm (Some authid) (Some (cl_extra cl)) (VStr (decode_str (hexlify (ed_public cr seed))))) = Accept r ->
    (length (e_random e1) < 200)%nat -> short_text (resp_authid r) -> short_text (resp_authrole r) ->
    agreed (handshake cr c (cl_authenticate cl) e1 e2 roles (joiner_with realm cl) (acceptor_init sroles true sid))
      (mkDetails (PyInt sid) realm (Some (resp_authid r)) (Some (resp_authrole r))).
  Proof.
    intros ED CL NP U (H1 & H2 & H3 & H4 & H5 & H6) A LR T1 T2.
    destruct (cs_client_pubkey _ _ _ _ _ _ CL) as (seed' & U' & L & _). rewrite U in U'. injection U' as <-.
    pose proof (cs_generated (e_random e1)) as G.
    assert (SG : sign_cryptosign_challenge cr (VStr (generate_cryptosign_challenge (e_random e1))) seed =
                 Ok (decode_str (hexlify (ed_sign cr seed (e_random e1))) ++ generate_cryptosign_challenge (e_random e1))%string).
    { unfold sign_cryptosign_challenge. cbn [unhexlify]. rewrite G. reflexivity. }
    eapply e2e_cryptosign; try eassumption.
    - apply carries_hello; try assumption; lit.
    - apply carries_challenge; [exact C|lit|]. apply small_challenge. apply hex_text. lia.
    - apply carries_authenticate; [exact C|]. destruct (ED seed (e_random e1) L) as (_ & SL & _).
      assert (E : (decode_str (hexlify (ed_sign cr seed (e_random e1))) ++ generate_cryptosign_challenge (e_random e1))%string =
                  decode_str (hexlify (ed_sign cr seed (e_random e1) ++ e_random e1))).
      { rewrite hexlify_app. unfold generate_cryptosign_challenge. rewrite <- (decode_encode_str (_ ++ _)%string), encode_str_app, !encode_decode_str. reflexivity. }
      rewrite E. apply hex_text. rewrite app_length, SL. lia.
    - apply carries_welcome; try assumption; exact I.
  Qed.
End E2E.
