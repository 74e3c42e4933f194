(** * ToyCrypto: a concrete (insecure) instance of the primitives, used only in Examples. *)
From Coq Require Import String Ascii List ZArith Bool Lia.
From Verif Require Import PyBase Messages Encoding Auth AuthFacts.
Import ListNotations.
Local Open Scope Z_scope.

Definition pad (n : nat) (b : bytes) : bytes := firstn n (b ++ repeat zero n).
Lemma pad_length n b : length (pad n b) = n.
Proof. unfold pad. rewrite firstn_length, app_length, repeat_length. lia. Qed.

Definition toy : crypto := {|
  hmac_sha256 k m := k ++ m;
  pbkdf2 p s i l := Ok (p ++ s);
  ed_public seed := pad 32 (rev seed);
  ed_sign seed m := pad 32 (rev seed) ++ pad 32 m;
  ed_verify pub m sig := if list_eq_dec ascii_dec sig (pub ++ pad 32 m) then true else false |}.

Lemma toy_ed25519 : ed25519_correct toy.
Proof.
  intros seed msg _. cbn [toy ed_public ed_sign ed_verify]. rewrite app_length, !pad_length.
  repeat split. destruct (list_eq_dec ascii_dec _ _); [reflexivity|contradiction].
Qed.
