(** * SessionRun: executions of a WAMPSession and the history they leave (newest first).  Definitions only. *)
From Coq Require Import List ZArith Bool.
From Verif Require Import PyBase Messages Serializer Session SpecSession.
Import ListNotations.

Definition took {A} (r : res A) : bool := match r with Ok _ => true | Raise _ => false end.

(** The user calls [send_message] or [receive_message]; exceptions are caught and the session kept. *)
Definition step (c : codec) (s : session) (o : op) : session * bool :=
  match o with
  | Snd m => let '(s', r) := send_message c s m in (s', took r)
  | Rcv m => let '(s', r) := receive_message s m in (s', took r)
  end.

Definition step_h (c : codec) (sh : session * history) (o : op) : session * history :=
  let '(s', b) := step c (fst sh) o in (s', (o, b) :: snd sh).

Definition run (c : codec) (ops : list op) : session * history :=
  fold_left (step_h c) ops (session_init, []).

(** What one more call returns in state [s]. *)
Definition receives (s : session) (m : message) : res message := snd (receive_message s m).
Definition sends (c : codec) (s : session) (m : message) : res bytes := snd (send_message c s m).
