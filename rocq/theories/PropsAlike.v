(** * PropsAlike: C136, a session looks at nothing but types, ids and the acknowledge option.

    Two histories of a session: in the second every message has its ids replaced, each sort of id on its own, and everything else — URIs,
    options, details, payloads, even the serializer — may be different.  The two sessions take and refuse the same messages. *)
From Coq Require Import String Ascii List ZArith Bool Lia.
From Verif Require Import PyBase Messages Serializer Session SpecHistory SpecSession SessionRun SpecAlike AlikeFacts.
Import ListNotations.
Local Open Scope Z_scope.

Theorem C136_receive : forall f c c' ops ops' m m', keeps_apart f -> Forall2 (alike_op f) ops ops' -> alike_msg f m m' ->
  (receives (fst (run c ops)) m = Ok m <-> receives (fst (run c' ops')) m' = Ok m').
Proof. exact (fun f c c' ops ops' m m' K => receives_alike f K c c' ops ops' m m'). Qed.
Print Assumptions C136_receive.

(** Sending, for messages that the serializers can write. *)
Theorem C136_send : forall f c c' ops ops' m m' b b', keeps_apart f -> Forall2 (alike_op f) ops ops' -> alike_msg f m m' ->
  serialize c m = Ok b -> serialize c' m' = Ok b' ->
  (sends c (fst (run c ops)) m = Ok b <-> sends c' (fst (run c' ops')) m' = Ok b').
Proof. exact (fun f c c' ops ops' m m' b b' K => sends_alike f K c c' ops ops' m m' b b'). Qed.
Print Assumptions C136_send.

(** A callee that registers, is called and yields; the other one with other ids (REGISTER requests shifted, registrations negated), another
    procedure, other payloads and a serializer that fails. *)
Definition ex_f (k : space) (x : Z) : Z := match k with Registration => - x | Request KRegister => x + 7 | _ => 2 * x end.
Definition ex_c : codec := mkCodec (fun _ => Ok ["x"%char]) (fun _ => Ok VNone).
Definition ex_bad : codec := mkCodec (fun _ => Raise (TypeError "not serializable")) (fun _ => Ok VNone).
Definition ex_ops : list op :=
  [Snd (Register (mkRegister (PyInt 1) "p" [])); Rcv (Registered (mkRegistered (PyInt 1) (PyInt 9)))].
Definition ex_ops' : list op :=
  [Snd (Register (mkRegister (PyInt 8) "other" [(VStr "match", VStr "prefix")])); Rcv (Registered (mkRegistered (PyInt 8) (PyInt (-9))))].
Definition ex_inv r g a := Invocation (mkInvocation (PyInt r) (PyInt g) a None [] no_payload).
Example C136_case :
  keeps_apart ex_f /\ Forall2 (alike_op ex_f) ex_ops ex_ops' /\
  alike_msg ex_f (ex_inv 5 9 None) (ex_inv 10 (-9) (Some [VBool true])) /\
  receives (fst (run ex_c ex_ops)) (ex_inv 5 9 None) = Ok (ex_inv 5 9 None) /\
  alike_msg ex_f (ex_inv 5 3 None) (ex_inv 10 (-3) None) /\
  receives (fst (run ex_bad ex_ops')) (ex_inv 10 (-3) None) <> Ok (ex_inv 10 (-3) None).
Proof.
  split; [intros [k| |] x y; [destruct k| |]; unfold ex_f; lia|]. split; [repeat constructor|].
  split; [reflexivity|]. split; [reflexivity|]. split; [reflexivity|discriminate].
Qed.

(** A yield after the invocation is sent by both. *)
Definition ex_yield r a := Yield (mkYield (PyInt r) a None [] no_payload).
Example C136_send_case : exists b b',
  Forall2 (alike_op ex_f) (ex_ops ++ [Rcv (ex_inv 5 9 None)]) (ex_ops' ++ [Rcv (ex_inv 10 (-9) None)]) /\
  alike_msg ex_f (ex_yield 5 None) (ex_yield 10 (Some [VInt 1])) /\ serialize ex_c (ex_yield 5 None) = Ok b /\
  serialize ex_c (ex_yield 10 (Some [VInt 1])) = Ok b' /\
  sends ex_c (fst (run ex_c (ex_ops ++ [Rcv (ex_inv 5 9 None)]))) (ex_yield 5 None) = Ok b.
Proof. exists ["x"%char], ["x"%char]. split; [repeat constructor|]. repeat split. Qed.
