(** * SpecByteFlow: the notions of SpecNetwork.v and SpecOrder.v for links that carry bytes.  Definitions only. *)
From Coq Require Import String List ZArith Bool.
From Verif Require Import PyBase Messages Serializer Network SpecNetwork SpecSchema ByteNetwork SpecByteNetwork SpecOrder.
Import ListNotations.
Local Open Scope Z_scope.

(** Session [s] receives bytes that deserialize to [x] when [a2] follows [a1]. *)
Definition bytes_receives (a1 : list waction) (s : Z) (x : message) (a2 : list waction) : Prop :=
  exists b1 b2 r, a2 = b1 ++ WDeliver s :: b2 /\ snd (bytes_step (fst (bytes_run (a1 ++ b1))) (WDeliver s)) = WDelivered (Ok x) r.
(** ... and accepts them. *)
Definition bytes_accepts (a1 : list waction) (s : Z) (x : message) (a2 : list waction) : Prop :=
  exists b1 b2, a2 = b1 ++ WDeliver s :: b2 /\ snd (bytes_step (fst (bytes_run (a1 ++ b1))) (WDeliver s)) = WDelivered (Ok x) (Ok x).
(** Session [s] stays and does not ask to end [i]. *)
Definition bytes_keeps_on (s i : Z) (m : message) (acts : list waction) : Prop :=
  ~ In (WLeave s) acts /\ forall u, In (WSend s u) acts -> ends i m u = false.
(** In [acts], [s] sent [m], was given [i] for it, and kept on since. *)
Definition bytes_holding (s : Z) (m : message) (i : Z) (acts : list waction) : Prop :=
  exists a1 a2 x, acts = a1 ++ WSend s m :: a2 /\ bytes_connected s (fst (bytes_run a1)) = true /\ bytes_keeps_on s i m a2 /\
    bytes_receives (a1 ++ [WSend s m]) s x a2 /\ grants m x = Some i.
Definition bytes_no_reply (s j : Z) (acts : list waction) : Prop := forall x u, In (WSend x u) acts -> may_end s j x u = false.
(** What the bytes that session [s] received deserialize to, newest first. *)
Definition bytes_inbox (s : Z) (t : bytes_trace) : list message :=
  flat_map (fun e => match e with
                     | (WDeliver s', WDelivered (Ok m) _) => if s' =? s then [m] else []
                     | _ => []
                     end) t.

(** The action number [i] of [acts] is the sending of [m] by [c], which is connected. *)
Definition bytes_sent_at (acts : list waction) (i : nat) (c : Z) (m : message) : Prop :=
  nth_error acts i = Some (WSend c m) /\ bytes_connected c (fst (bytes_run (firstn i acts))) = true.
Definition bytes_history (acts : list waction) (s : Z) (h : list (nat * message)) : Prop :=
  map snd h = rev (bytes_inbox s (snd (bytes_run acts))) /\
  Forall (fun p => exists c m, bytes_sent_at acts (fst p) c m /\ gives_rise c (normalise m) s (snd p)) h.
Definition bytes_precedes (acts : list waction) (p q : nat * message) : Prop :=
  forall c m1 m2, bytes_sent_at acts (fst p) c m1 -> bytes_sent_at acts (fst q) c m2 ->
  (fst p < fst q)%nat \/
  (fst p = fst q /\ exists a e, snd p = Published a /\ snd q = Event e).
