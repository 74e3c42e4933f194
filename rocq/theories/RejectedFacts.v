(** * RejectedFacts: lemmas behind PropsRejected. *)
From Coq Require Import String Ascii List ZArith Bool Lia.
From Verif Require Import PyBase Messages Parse Serializer Encoding Auth Joiner Acceptor SpecHistory SpecAcceptor AcceptorFacts SpecRejected Dealer SpecDealer DealerFacts.
Import ListNotations.
Local Open Scope string_scope.
Local Open Scope list_scope.

(** The two acceptors differ at most in attributes that will be overwritten before they are read. *)
Definition alike (a a' : acceptor) : Prop :=
  a_roles a' = a_roles a /\ a_has_auth a' = a_has_auth a /\ a_session_id a' = a_session_id a /\ a_state a' = a_state a /\ a_details a' = a_details a /\
  (a_state a = A_CHALLENGE_SENT -> exists m, a_method a = Some m /\ a_method a' = Some m /\ a_hello a' = a_hello a /\
     (m = VStr "cryptosign" -> a_response a' = a_response a /\ a_public_key a' = a_public_key a) /\
     (m = VStr "wampcra" -> a_response a' = a_response a /\ a_challenge a' = a_challenge a /\ a_secret a' = a_secret a)).
Ltac alike_now := repeat split; cbn; try reflexivity; try discriminate;
  try (intros _; eexists; repeat split; first [reflexivity|discriminate|intros; discriminate]).

Lemma alike_hello e a a' m : alike a a' ->
  snd (receive_hello e a' m) = snd (receive_hello e a m) /\ alike (fst (receive_hello e a m)) (fst (receive_hello e a' m)).
Proof.
  intros A. pose proof A as A0. destruct a as [ro ha sid st me he re de pk ch se], a' as [ro' ha' sid' st' me' he' re' de' pk' ch' se'].
  destruct A as (E1 & E2 & E3 & E4 & E5 & E6). cbn in E1, E2, E3, E4, E5, E6. subst. unfold receive_hello. cbn [a_state a_has_auth].
  destruct st; try (split; [reflexivity|exact A0]). clear E6 A0.
  destruct ha; cbn [negb]; [|unfold do_welcome; cbn; split; [reflexivity|alike_now]]. unfold a_set_hello. cbn.
  destruct (is_method _ "anonymous").
  { destruct (e_auth e _); unfold do_welcome; cbn; (split; [reflexivity|alike_now]). }
  destruct (is_method _ "cryptosign") eqn:C.
  { apply is_method_iff in C. rewrite C. destruct (he_authextra m) as [x|]; [|split; [reflexivity|alike_now]]. destruct (sget_default _ _ _) as [| | | | | | | |]; try (split; [reflexivity|alike_now]; fail);
      (destruct (e_auth e _); cbn; (split; [reflexivity|alike_now])). }
  destruct (is_method _ "wampcra") eqn:W.
  { apply is_method_iff in W. rewrite W. destruct (e_auth e _) as [r|]; [|split; [reflexivity|alike_now]]. destruct r; [split; [reflexivity|alike_now]|]. cbn.
    destruct (generate_wampcra_challenge _ _ _ _ _ _ _); cbn; (split; [reflexivity|alike_now]). }
  destruct (is_method _ "ticket") eqn:T; [|split; [reflexivity|alike_now]]. cbn. split; [reflexivity|].
  apply is_method_iff in T. rewrite T. alike_now.
Qed.
Lemma alike_authenticate cr e a a' m : alike a a' ->
  snd (receive_authenticate cr e a' m) = snd (receive_authenticate cr e a m) /\ alike (fst (receive_authenticate cr e a m)) (fst (receive_authenticate cr e a' m)).
Proof.
  intros A. pose proof A as A0. destruct a as [ro ha sid st me he re de pk ch se], a' as [ro' ha' sid' st' me' he' re' de' pk' ch' se'].
  destruct A as (E1 & E2 & E3 & E4 & E5 & E6). cbn in E1, E2, E3, E4, E5, E6. subst. unfold receive_authenticate. cbn [a_state a_method].
  destruct st; try (split; [reflexivity|exact A0]). destruct (E6 eq_refl) as (me0 & -> & -> & -> & Cs & Cra). clear E6.
  destruct (is_method me0 "cryptosign") eqn:M1.
  { apply is_method_iff in M1. destruct (Cs M1) as [-> ->]. cbn [a_public_key]. destruct (bind _ _) as [[|]|x]; [| |split; [reflexivity|exact A0]].
    - cbn [a_response a_hello]. destruct re, he; unfold do_welcome; cbn; (split; [reflexivity|alike_now]).
    - cbn. split; [reflexivity|alike_now]. }
  destruct (is_method me0 "wampcra") eqn:M2.
  { apply is_method_iff in M2. destruct (Cra M2) as (-> & -> & ->). cbn [a_challenge a_secret]. destruct ch as [ch|], se as [se|]; try (split; [reflexivity|exact A0]).
    destruct (verify_wampcra_signature _ _ _ _) as [[|]|x]; [| |split; [reflexivity|exact A0]].
    - cbn [a_response a_hello]. destruct re, he; unfold do_welcome; cbn; (split; [reflexivity|alike_now]).
    - cbn. split; [reflexivity|alike_now]. }
  destruct (is_method me0 "ticket"); [|split; [reflexivity|exact A0]]. cbn [a_hello]. destruct he as [h|]; [|split; [reflexivity|exact A0]].
  destruct (e_auth e _); [|split; [reflexivity|exact A0]]. unfold do_welcome. cbn. split; [reflexivity|alike_now].
Qed.
Lemma alike_step cr e a a' m : alike a a' ->
  snd (acceptor_receive_message cr e a' m) = snd (acceptor_receive_message cr e a m) /\
  alike (fst (acceptor_receive_message cr e a m)) (fst (acceptor_receive_message cr e a' m)).
Proof.
  intros A. unfold acceptor_receive_message. assert (S : a_state a' = a_state a) by apply A. rewrite S.
  assert (G : snd (match m with Hello h => receive_hello e a' h | Authenticate x => receive_authenticate cr e a' x | Abort _ => (a_set_state a' A_ABORTED, Ok None) | _ => (a', Ok None) end) =
              snd (match m with Hello h => receive_hello e a h | Authenticate x => receive_authenticate cr e a x | Abort _ => (a_set_state a A_ABORTED, Ok None) | _ => (a, Ok None) end) /\
              alike (fst (match m with Hello h => receive_hello e a h | Authenticate x => receive_authenticate cr e a x | Abort _ => (a_set_state a A_ABORTED, Ok None) | _ => (a, Ok None) end))
                    (fst (match m with Hello h => receive_hello e a' h | Authenticate x => receive_authenticate cr e a' x | Abort _ => (a_set_state a' A_ABORTED, Ok None) | _ => (a', Ok None) end))).
  { destruct m; try (split; [reflexivity|exact A]); [apply alike_hello; exact A| |apply alike_authenticate; exact A].
    cbn. split; [reflexivity|]. destruct A as (E1 & E2 & E3 & E4 & E5 & _). repeat split; cbn; try assumption; discriminate. }
  destruct (a_state a); first [exact G|split; [reflexivity|exact A]].
Qed.
Lemma alike_bytes cr c e a a' b : alike a a' ->
  snd (acceptor_receive cr c e a' b) = snd (acceptor_receive cr c e a b) /\ alike (fst (acceptor_receive cr c e a b)) (fst (acceptor_receive cr c e a' b)).
Proof.
  intros A. unfold acceptor_receive. destruct (deserialize c b) as [m|x]; [|split; [reflexivity|exact A]]. pose proof (alike_step cr e a a' m A) as [H K].
  destruct (acceptor_receive_message cr e a m) as [z r], (acceptor_receive_message cr e a' m) as [z' r']. cbn in *. subst r'. split; [reflexivity|exact K].
Qed.
Lemma alike_answers cr ops : forall a a', alike a a' -> let (rs, z) := answers cr a ops in let (rs', z') := answers cr a' ops in rs' = rs /\ alike z z'.
Proof.
  induction ops as [|[e m] ops IH]; intros a a' A; cbn [answers]; [split; [reflexivity|exact A]|]. pose proof (alike_step cr e a a' m A) as [H K].
  destruct (acceptor_receive_message cr e a m) as [z r], (acceptor_receive_message cr e a' m) as [z' r']. cbn in H, K. subst r'. specialize (IH z z' K).
  destruct (answers cr z ops) as [rs w], (answers cr z' ops) as [rs' w']. destruct IH as [-> W]. split; [reflexivity|exact W].
Qed.
Lemma alike_replies cr c ops : forall a a', alike a a' -> let (rs, z) := replies cr c a ops in let (rs', z') := replies cr c a' ops in rs' = rs /\ alike z z'.
Proof.
  induction ops as [|[e m] ops IH]; intros a a' A; cbn [replies]; [split; [reflexivity|exact A]|]. pose proof (alike_bytes cr c e a a' m A) as [H K].
  destruct (acceptor_receive cr c e a m) as [z r], (acceptor_receive cr c e a' m) as [z' r']. cbn in H, K. subst r'. specialize (IH z z' K).
  destruct (replies cr c z ops) as [rs w], (replies cr c z' ops) as [rs' w']. destruct IH as [-> W]. split; [reflexivity|exact W].
Qed.
Lemma alike_same cr a a' : alike a a' -> indistinguishable cr a a'.
Proof.
  assert (F : forall z z', alike z z' -> is_aborted z' = is_aborted z /\ acceptor_details z' = acceptor_details z).
  { intros z z' (_ & _ & _ & E4 & E5 & _). unfold is_aborted, acceptor_details. rewrite E4, E5. auto. }
  intros A. split.
  - intros ops. pose proof (alike_answers cr ops a a' A) as H. destruct (answers cr a ops) as [rs z], (answers cr a' ops) as [rs' z']. destruct H as [H K]. split; [exact H|apply F, K].
  - intros c ops. pose proof (alike_replies cr c ops a a' A) as H. destruct (replies cr c a ops) as [rs z], (replies cr c a' ops) as [rs' z']. destruct H as [H K]. split; [exact H|apply F, K].
Qed.
Lemma core_alike cr roles ha sid a h a' : AInv cr roles ha sid a h -> same_core a a' -> alike a a'.
Proof.
  intros I (E1 & E2 & E3 & E4 & E5 & E6). repeat split; try assumption. intros C. rewrite E6 by (rewrite C; discriminate).
  destruct (ai_mem _ _ _ _ _ _ I C) as (e0 & m0 & c0 & _ & R). rewrite (remembers_method _ _ _ _ R). eexists. repeat split; reflexivity.
Qed.

Lemma acceptor_rejected cr roles ha sid ops e msg x : let a := fst (arun cr roles ha sid ops) in
  snd (acceptor_receive_message cr e a msg) = Raise x -> indistinguishable cr a (fst (acceptor_receive_message cr e a msg)).
Proof.
  intros a H. pose proof (AInv_run cr roles ha sid ops) as I. fold a in I. apply alike_same. pose proof (step_outcome _ _ _ _ _ _ e msg I) as O. rewrite H in O.
  inversion O; subst. eapply core_alike; [exact I|]. eassumption.
Qed.
Lemma acceptor_hello_refused cr roles ha sid ops e m args : let a := fst (arun cr roles ha sid ops) in
  snd (acceptor_receive_message cr e a (Hello m)) = Ok (Some (Abort args)) -> indistinguishable cr a (fst (acceptor_receive_message cr e a (Hello m))).
Proof.
  intros a H. pose proof (AInv_run cr roles ha sid ops) as I. fold a in I. apply alike_same. pose proof (step_outcome _ _ _ _ _ _ e (Hello m) I) as O. rewrite H in O.
  inversion O; subst; try contradiction. eapply core_alike; [exact I|]. eassumption.
Qed.
Lemma acceptor_bytes_rejected cr roles ha sid ops c e b : let a := fst (arun cr roles ha sid ops) in
  (exists x, deserialize c b = Raise x) \/ (exists m x, deserialize c b = Ok m /\ snd (acceptor_receive_message cr e a m) = Raise x) ->
  (exists x, snd (acceptor_receive cr c e a b) = Raise x) /\ indistinguishable cr a (fst (acceptor_receive cr c e a b)).
Proof.
  intros a [(x & H)|(m & x & H & K)]; unfold acceptor_receive; rewrite H.
  - split; [exists x; reflexivity|]. cbn [fst]. pose proof (AInv_run cr roles ha sid ops) as I. fold a in I. apply alike_same. eapply core_alike; [exact I|apply same_core_refl].
  - pose proof (acceptor_rejected cr roles ha sid ops e m x K) as P. fold a in P. destruct (acceptor_receive_message cr e a m) as [a' r]. cbn in *. subst r. split; [exists x; reflexivity|exact P].
Qed.

(** ** Joiner *)
Lemma joiner_rejected authn j m x : snd (joiner_receive_message authn j m) = Raise x -> fst (joiner_receive_message authn j m) = j.
Proof. unfold joiner_receive_message. destruct m; try reflexivity; destruct (j_state j); try reflexivity; try discriminate. destruct (authn m); [discriminate|reflexivity]. Qed.

(** ** Dealer *)
Lemma remove_all_keeps s ls : forall d x, snd (d_remove_all s d ls) = Raise (ValueError x) -> False.
Proof.
  induction ls as [|[i l] ls IH]; intros d x; cbn [d_remove_all]; [discriminate|]. destruct (d_remove_one s d l) as [d' [u|e]] eqn:E; [apply IH|]. cbn. intros [= ->].
  revert E. unfold d_remove_one. cbv zeta. repeat match goal with |- context [match ?y with _ => _ end] => destruct y end; try discriminate; intros [=].
Qed.
Lemma dealer_rejected d s m x : snd (d_receive_message d s m) = Raise (ValueError x) -> fst (d_receive_message d s m) = d.
Proof.
  unfold d_receive_message. destruct m; try reflexivity; unfold d_call, d_yield, d_register, d_unregister, d_error; cbv zeta;
    repeat match goal with |- context [match ?y with _ => _ end] => destruct y end; intros H; first [reflexivity|discriminate H].
Qed.
Lemma dealer_membership_rejected d : (forall det x, snd (d_add_session d det) = Raise (ValueError x) -> fst (d_add_session d det) = d) /\
  (forall s x, snd (d_remove_session d s) = Raise (ValueError x) -> fst (d_remove_session d s) = d).
Proof.
  split.
  - intros det x. unfold d_add_session. destruct (zmem _ _); [reflexivity|discriminate].
  - intros s x. unfold d_remove_session. destruct (zget s _) as [regs|]; [|reflexivity].
    pose proof (remove_all_keeps s regs (set_dsession d (zdel s (d_by_session d))) x) as K. destruct (d_remove_all _ _ _) as [d' [u|e]].
    + destruct (zmem _ _); discriminate.
    + intros H. contradiction.
Qed.
