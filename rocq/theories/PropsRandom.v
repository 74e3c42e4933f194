(** * PropsRandom: C133, challenges, nonces and session ids are not unpredictable; C134, their form.

    [serve asks t]: what a process gives out, and its generator afterwards, when asked for [asks] one after the other, starting from the
    state [t] of Python's [random] (Random.v).  [clone]: the observer's copy, computed from the texts seen only (SpecRandom.v). *)
From Coq Require Import String Ascii List ZArith Bool Lia.
From Verif Require Import PyBase Encoding Auth Random SpecRandom RandomFacts.
Import ListNotations.
Local Open Scope string_scope.
Local Open Scope Z_scope.
Local Open Scope list_scope.

(** After any history, 78 challenges in a row, or 156 nonces, tell all the rest. *)
Theorem C133_refuted : forall t history asks, valid t -> let t0 := snd (serve history t) in
  fst (serve asks (clone (fst (serve (repeat AskChallenge 78) t0)))) = fst (serve asks (snd (serve (repeat AskChallenge 78) t0))).
Proof. exact challenges_clone_any. Qed.
Print Assumptions C133_refuted.
Theorem C133_nonces_refuted : forall t history asks, valid t -> let t0 := snd (serve history t) in
  fst (serve asks (clone (fst (serve (repeat AskNonce 156) t0)))) = fst (serve asks (snd (serve (repeat AskNonce 156) t0))).
Proof. exact nonces_clone_any. Qed.
Print Assumptions C133_nonces_refuted.
(** The next challenge and the next nonce written as a function of the last ones. *)
Theorem C133_next_challenge_refuted : forall t k, valid t ->
  forecast 8 (firstn 78 (skipn k (draws draw_cryptosign_challenge (k + 79) t))) = nth (k + 78) (draws draw_cryptosign_challenge (k + 79) t) "".
Proof. exact cryptosign_foretold. Qed.
Print Assumptions C133_next_challenge_refuted.
Theorem C133_next_nonce_refuted : forall t k, valid t ->
  forecast 4 (firstn 156 (skipn k (draws draw_wampcra_nonce (k + 157) t))) = nth (k + 156) (draws draw_wampcra_nonce (k + 157) t) "".
Proof. exact wampcra_foretold. Qed.
Print Assumptions C133_next_nonce_refuted.

Theorem C134_challenge : forall t, exists b, length b = 32%nat /\
  unhexlify_str (fst (draw_cryptosign_challenge t)) = Ok b /\ fst (draw_cryptosign_challenge t) = decode_str (hexlify b).
Proof. exact (fun t => text_form 8 _ t cryptosign_texter). Qed.
Print Assumptions C134_challenge.
Theorem C134_nonce : forall t, exists b, length b = 16%nat /\
  unhexlify_str (fst (draw_wampcra_nonce t)) = Ok b /\ fst (draw_wampcra_nonce t) = decode_str (hexlify b).
Proof. exact (fun t => text_form 4 _ t wampcra_texter). Qed.
Print Assumptions C134_nonce.
Theorem C134_session_id : forall n t s t', valid t -> draw_session_id n t = (Some s, t') -> 1 <= s <= 2 ^ 53 /\ valid t'.
Proof. exact session_id_range. Qed.
Print Assumptions C134_session_id.

(** A state, and what is drawn from it first. *)
Definition ex_t : twister := mkTwister (map Z.of_nat (seq 1 624)) 0.
Example C133_ex_valid : valid ex_t.
Proof.
  split; [reflexivity|split; [|cbn; lia]]. apply Forall_forall. intros w I. apply in_map_iff in I. destruct I as (n & <- & I). apply in_seq in I.
  split; [apply Nat2Z.is_nonneg|]. apply Z.le_lt_trans with 624; [|reflexivity]. change 624 with (Z.of_nat 624). apply inj_le, Nat.lt_succ_r, I.
Qed.
Example C133_ex_serve : fst (serve [AskChallenge; AskNonce; AskSession 9; AskChallenge] ex_t) =
  [GivenText "91004000020000009300400044020201d502420146020201d702420189040402"; GivenText "180444028b0404021a044402cd060603";
   GivenId (Some 212759849862749); GivenText "5e0646031000000081004000120000008300400054020201c502420156020201"].
Proof. vm_compute. reflexivity. Qed.
Example C133_ex_word : untemper 4194449 = 1 /\ temper 1 = 4194449. Proof. split; reflexivity. Qed.
