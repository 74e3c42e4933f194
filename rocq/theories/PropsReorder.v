(** * PropsReorder: C137, sends and arrivals may overtake each other, a request and its answer excepted. *)
From Coq Require Import String Ascii List ZArith Bool Permutation.
From Verif Require Import PyBase Messages Serializer Session SpecHistory SpecSession SessionRun SpecAlike SpecReorder ReorderFacts.
Import ListNotations.
Local Open Scope Z_scope.

(** Whether the other message came first makes no difference to what a send returns or raises, nor to what happens to an arrival. *)
Theorem C137_results : forall c ops a b, unrelated a b ->
  sends c (fst (run c (ops ++ [Rcv b]))) a = sends c (fst (run c ops)) a /\
  receives (fst (run c (ops ++ [Snd a]))) b = receives (fst (run c ops)) b.
Proof. exact swap_results. Qed.
Print Assumptions C137_results.

(** In another order the same messages are taken and refused, and the session is the same afterwards. *)
Theorem C137_reordered : forall c ops ops', reordered ops ops' ->
  fst (run c ops') = fst (run c ops) /\ Permutation (snd (run c ops')) (snd (run c ops)).
Proof. exact (fun c ops ops' R => reordered_same c ops' ops (R_back _ _ R)). Qed.
Print Assumptions C137_reordered.

(** All interleavings of the same sends with the same arrivals are such orders, if no arrival answers one of the sends, nor the other way
    round. *)
Theorem C137_interleavings : forall ops ops', all_unrelated ops -> sent ops' = sent ops -> arrived ops' = arrived ops -> reordered ops ops'.
Proof. exact interleavings. Qed.
Print Assumptions C137_interleavings.

Definition ex_c : codec := mkCodec (fun _ => Ok ["x"%char]) (fun _ => Ok VNone).
Definition ex_call r := Call (mkCall (PyInt r) "p" None None [] no_payload).
Definition ex_result r := Result (mkResult (PyInt r) None None [] no_payload).
Definition ex_subscribed r g := Subscribed (mkSubscribed (PyInt r) (PyInt g)).
Definition ex_subscribe r := Subscribe (mkSubscribe (PyInt r) "t" []).
Definition ex_event g := Event (mkEvent (PyInt g) (PyInt 7) None None []).

(** Calls 2 and 3 are sent while the answer to call 1 and an event come in, in two interleavings. *)
Example C137_case :
  let pre := [Snd (ex_call 1); Snd (ex_subscribe 1); Rcv (ex_subscribed 1 9)] in
  let ops := [Snd (ex_call 2); Rcv (ex_result 1); Snd (ex_call 3); Rcv (ex_event 9)] in
  let ops' := [Rcv (ex_result 1); Rcv (ex_event 9); Snd (ex_call 2); Snd (ex_call 3)] in
  all_unrelated ops /\ sent ops' = sent ops /\ arrived ops' = arrived ops /\
  map snd (snd (run ex_c (pre ++ ops))) = repeat true 7 /\ map snd (snd (run ex_c (pre ++ ops'))) = repeat true 7 /\
  receives (fst (run ex_c (pre ++ ops'))) (ex_result 3) = Ok (ex_result 3).
Proof.
  split; [|repeat split]. intros a b A B. cbn in A, B. destruct A as [<-|[<-|[]]], B as [<-|[<-|[]]]; intros q Q W; cbn in Q, W; congruence.
Qed.

(** The exception is needed: an answer that overtakes its request is refused. *)
Example C137_answer_first :
  ~ unrelated (ex_call 1) (ex_result 1) /\
  map snd (snd (run ex_c [Snd (ex_call 1); Rcv (ex_result 1)])) = [true; true] /\
  map snd (snd (run ex_c [Rcv (ex_result 1); Snd (ex_call 1)])) = [true; false].
Proof. split; [|split; reflexivity]. intros U. exact (U _ eq_refl eq_refl). Qed.
