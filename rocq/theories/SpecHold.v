(** * SpecHold: when a client holds a subscription or registration, in terms of what it received.  Definitions only. *)
From Coq Require Import List ZArith Bool.
From Verif Require Import PyBase Messages Network SpecNetwork.
Import ListNotations.
Local Open Scope Z_scope.

(** What session [s] receives next, after [acts], is [x]. *)
Definition next_is (acts : list action) (s : Z) (x : message) : Prop :=
  exists r, snd (nstep (fst (nrun acts)) (ADeliver s)) = Delivered x r.

(** The id that [x] gives to the client (SUBSCRIBED, REGISTERED). *)
Definition gives (hf : half) (x : message) : option Z :=
  match hf, x with
  | PubSub, Subscribed y => Some (pyint_Z (sd_subscription y))
  | Rpc, Registered y => Some (pyint_Z (rd_registration y))
  | _, _ => None
  end.
(** The subscription or registration that [x] is about (EVENT, INVOCATION). *)
Definition about (hf : half) (x : message) : option Z :=
  match hf, x with
  | PubSub, Event y => Some (pyint_Z (ev_subscription y))
  | Rpc, Invocation y => Some (pyint_Z (iv_registration y))
  | _, _ => None
  end.
(** [x] confirms the request [u] to end [i]. *)
Definition confirms_end (i : Z) (u x : message) : bool :=
  match u, x with
  | Unsubscribe a, Unsubscribed b => (pyint_Z (us_request a) =? pyint_Z (ud_request b)) && (pyint_Z (us_subscription a) =? i)
  | Unregister a, Unregistered b => (pyint_Z (ur_request a) =? pyint_Z (un_request b)) && (pyint_Z (ur_registration a) =? i)
  | _, _ => false
  end.
(** What [s] receives next confirms a request, made by [s] during this connection, to end [i]. *)
Definition told_end (hf : half) (acts : list action) (s i : Z) : Prop :=
  exists x b u c, next_is acts s x /\ message_half x = Some hf /\ acts = b ++ ASend s u :: c /\ connected s (fst (nrun b)) = true /\
    ~ In (ALeave s) c /\ confirms_end i u x = true.

(** [s] was given [i], has not left since, and has not been told that it ended. *)
Definition held (hf : half) (acts : list action) (s i : Z) : Prop :=
  exists a1 y a2, acts = a1 ++ ADeliver s :: a2 /\ next_is a1 s y /\ gives hf y = Some i /\ ~ In (ALeave s) a2 /\
    forall b c, a2 = b ++ ADeliver s :: c -> ~ told_end hf (a1 ++ ADeliver s :: b) s i.
