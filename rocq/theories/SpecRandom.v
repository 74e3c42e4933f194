(** * SpecRandom: what an observer of random hex texts can compute. *)
From Coq Require Import String Ascii List ZArith Bool.
From Verif Require Import PyBase Rawsocket Encoding Random.
Import ListNotations.
Local Open Scope Z_scope.
Local Open Scope list_scope.

(** The states of Python's generator. *)
Definition valid (t : twister) : Prop :=
  length (tw_words t) = 624%nat /\ Forall (fun w => 0 <= w < 2 ^ 32) (tw_words t) /\ (tw_index t <= 624)%nat.

(** Undo [y ^ (y >> k)] and [y ^ ((y << k) & m)] by repeating them. *)
Fixpoint undo_right (n : nat) (k y : Z) : Z := match n with O => y | S n' => Z.lxor y (Z.shiftr (undo_right n' k y) k) end.
Fixpoint undo_left (n : nat) (k m y : Z) : Z := match n with O => y | S n' => Z.lxor y (Z.land (Z.shiftl (undo_left n' k m y) k) m) end.
Definition untemper (y : Z) : Z :=
  undo_right 2 11 (undo_left 4 7 2636928640 (undo_left 2 15 4022730752 (undo_right 1 18 y))).

(** The generator MT19937 (Matsumoto and Nishimura, 1998): how a word follows from three earlier ones, and how it is shown. *)
Definition mt_mix (a b : Z) : Z :=
  let y := a / 2 ^ 31 * 2 ^ 31 + b mod 2 ^ 31 in Z.lxor (y / 2) (if y mod 2 =? 1 then 2567483615 else 0).
Definition mt_temper (y0 : Z) : Z :=
  let y1 := Z.lxor y0 (y0 / 2 ^ 11) in
  let y2 := Z.lxor y1 (Z.land (y1 * 2 ^ 7) 2636928640) in
  let y3 := Z.lxor y2 (Z.land (y2 * 2 ^ 15) 4022730752) in
  Z.lxor y3 (y3 / 2 ^ 18).

(** The next number from the last 624 ones; three of them suffice. *)
Definition forecast_word (ws : list Z) : Z :=
  mt_temper (Z.lxor (untemper (nth 397 ws 0)) (mt_mix (untemper (nth 0 ws 0)) (untemper (nth 1 ws 0)))).
Fixpoint forecast_words (n : nat) (ws : list Z) : list Z :=
  match n with O => [] | S n' => let w := forecast_word ws in w :: forecast_words n' (tl ws ++ [w]) end.

(** The 32-bit words in a hex text. *)
Fixpoint words_of (b : bytes) : list Z :=
  match b with
  | b0 :: b1 :: b2 :: b3 :: b' => byte_Z b0 + 256 * byte_Z b1 + 256 ^ 2 * byte_Z b2 + 256 ^ 3 * byte_Z b3 :: words_of b'
  | _ => []
  end.
Definition words_in (text : string) : list Z := match unhexlify_str text with Ok b => words_of b | Raise _ => [] end.

(** The next text of [n] words from the last ones. *)
Definition forecast (n : nat) (texts : list string) : string :=
  decode_str (hexlify (flat_map le_word (forecast_words n (flat_map words_in texts)))).

(** Everything the library draws from the generator; for a session id, the most attempts allowed. *)
Inductive ask := AskChallenge | AskNonce | AskSession (attempts : nat).
Inductive given := GivenText (s : string) | GivenId (i : option Z).
Definition give (a : ask) (t : twister) : given * twister :=
  match a with
  | AskChallenge => let '(s, t') := draw_cryptosign_challenge t in (GivenText s, t')
  | AskNonce => let '(s, t') := draw_wampcra_nonce t in (GivenText s, t')
  | AskSession n => let '(i, t') := draw_session_id n t in (GivenId i, t')
  end.
Fixpoint serve (asks : list ask) (t : twister) : list given * twister :=
  match asks with
  | [] => ([], t)
  | a :: asks' => let '(g, t1) := give a t in let '(gs, t2) := serve asks' t1 in (g :: gs, t2)
  end.

(** The observer's copy of the generator, from the texts seen. *)
Definition clone (seen : list given) : twister :=
  mkTwister (map untemper (flat_map (fun g => match g with GivenText s => words_in s | GivenId _ => [] end) seen)) 624.
