(** * PropsTextLimit: C138, errors about ints that are too long to be written. *)
From Coq Require Import String Ascii List ZArith Bool Lia.
From Verif Require Import PyBase Messages Validate Parse SpecSchema SchemaFacts TextLimit TextLimitFacts.
Import ListNotations.
Local Open Scope string_scope.
Local Open Scope Z_scope.
Local Open Scope list_scope.

(** Not all violations are reported when one of them mentions an int of more than 4300 digits: the others are lost. *)
Theorem C138_refuted : forall z, 10 ^ 4300 <= z ->
  let l := [VInt 48; VInt z; VInt 5; VInt 6] in
  length_ok CCall l /\ head_ok CCall l /\ length (violations CCall l) = 3%nat /\
  exists text, parse_lim CCall l = Raise (ValueError [text]).
Proof.
  intros z H l. split; [split; repeat constructor|]. split; [eexists; eexists; split; reflexivity|]. split; [exact (too_long_violations z (big_id z H))|].
  eexists. apply too_long_call; [|exact (big_unwritable z H)]. apply orb_true_intro. right. apply Z.ltb_lt. exact (big_id z H).
Qed.
Print Assumptions C138_refuted.

(** Otherwise parse is as in C01-C05: the same on all lists whose ints can be written, *)
Theorem C138_same : forall c l, forallb writable l = true -> parse_lim c l = parse_of c l.
Proof. exact lim_same. Qed.
Print Assumptions C138_same.

(** the same messages from all lists, and never another exception than the one above. *)
Theorem C138_messages : forall c l m, parse_lim c l = Ok m <-> parse_of c l = Ok m.
Proof. exact lim_ok. Qed.
Print Assumptions C138_messages.

Theorem C138_exceptions : forall c l e, parse_lim c l = Raise e -> parse_of c l = Raise e \/ exists text, e = ValueError [text].
Proof. exact (fun c l e H => match lim_raise c l e H with or_introl E => or_introl E | or_intror E => or_intror (ex_intro _ _ E) end). Qed.
Print Assumptions C138_exceptions.

(** What C138_same is about: two violations, both reported. *)
Example C138_case :
  let l := [VInt 48; VStr "x"; VDict [(VStr "a", VList [VNone])]; VBool true] in
  forallb writable l = true /\ exists a b, parse_lim CCall l = Raise (ValueError [a; b]).
Proof. split; [reflexivity|]. eexists. eexists. reflexivity. Qed.
