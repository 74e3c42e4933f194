(** * SpecHostileHold: what a client holds (SpecHold.v), in a network with hostile clients.  Definitions only. *)
From Coq Require Import List ZArith Bool.
From Verif Require Import PyBase Messages Serializer Session Network SpecNetwork SpecHold ByteNetwork SpecByteNetwork HostileNetwork.
Import ListNotations.
Local Open Scope Z_scope.

(** What [s] receives next deserializes to [x]. *)
Definition h_next_is (acts : list haction) (s : Z) (x : message) : Prop :=
  exists r, snd (hstep (fst (hrun acts)) (HAct (WDeliver s))) = WDelivered (Ok x) r.
(** What [s] receives next confirms a request, made by [s] during this connection, to end [i]. *)
Definition h_told_end (hf : half) (acts : list haction) (s i : Z) : Prop :=
  exists x b u c, h_next_is acts s x /\ message_half x = Some hf /\ acts = b ++ HAct (WSend s u) :: c /\ bytes_connected s (fst (hrun b)) = true /\
    ~ In (HAct (WLeave s)) c /\ confirms_end i u x = true.
(** [s] was given [i], has not left since, and has not been told that it ended. *)
Definition h_held (hf : half) (acts : list haction) (s i : Z) : Prop :=
  exists a1 y a2, acts = a1 ++ HAct (WDeliver s) :: a2 /\ h_next_is a1 s y /\ gives hf y = Some i /\ ~ In (HAct (WLeave s)) a2 /\
    forall b c, a2 = b ++ HAct (WDeliver s) :: c -> ~ h_told_end hf (a1 ++ HAct (WDeliver s) :: b) s i.
