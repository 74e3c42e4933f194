(** * SpecOrder: in which order messages arrive.  Definitions only. *)
From Coq Require Import String List ZArith Bool.
From Verif Require Import PyBase Messages Network SpecNetwork.
Import ListNotations.
Local Open Scope Z_scope.

(** Message [m] of session [c] may make the router send [x] to session [s]: what the two have in common. *)
Definition gives_rise (c : Z) (m : message) (s : Z) (x : message) : Prop :=
  match m, x with
  | Subscribe q, Subscribed y => s = c /\ sd_request y = su_request q
  | Unsubscribe q, Unsubscribed y => s = c /\ ud_request y = us_request q
  | Publish q, Published y => s = c /\ pd_request y = pb_request q
  | Publish q, Event y => ev_args y = pb_args q /\ ev_kwargs y = pb_kwargs q
  | Register q, Registered y => s = c /\ rd_request y = rg_request q
  | Register q, Error y => s = c /\ er_type y = PyInt 64 /\ er_request y = rg_request q
  | Unregister q, Unregistered y => s = c /\ un_request y = ur_request q
  | Call q, Invocation y => iv_args y = ca_args q /\ iv_kwargs y = ca_kwargs q
  | Call q, Error y => s = c /\ er_type y = PyInt 48 /\ er_request y = ca_request q
  | Yield q, Result y => re_args y = yi_args q /\ re_kwargs y = yi_kwargs q
  | Error q, Error y => er_type y = PyInt 48 /\ er_uri y = er_uri q /\ er_args y = er_args q /\ er_kwargs y = er_kwargs q /\ er_details y = er_details q
  | _, _ => False
  end.

(** The action number [i] (counted from 0) of [acts] is the sending of [m] by [c], which is connected. *)
Definition sent_at (acts : list action) (i : nat) (c : Z) (m : message) : Prop :=
  (exists a, nth_error acts i = Some a /\ sending a c m) /\ connected c (fst (nrun (firstn i acts))) = true.

(** A [history] of a session [s] gives for each message that [s] received, oldest first, the number of the action that
    gave rise to it. *)
Definition history (acts : list action) (s : Z) (h : list (nat * message)) : Prop :=
  map snd h = rev (inbox s (snd (nrun acts))) /\
  Forall (fun p => exists c m, sent_at acts (fst p) c m /\ gives_rise c m s (snd p)) h.

(** Of two messages [p], [q] with one and the same sender behind them, [p] was sent first; one message gives rise to two
    only when a publisher gets its acknowledgement and its own event. *)
Definition precedes (acts : list action) (p q : nat * message) : Prop :=
  forall c m1 m2, sent_at acts (fst p) c m1 -> sent_at acts (fst q) c m2 ->
  (fst p < fst q)%nat \/
  (fst p = fst q /\ exists a e, snd p = Published a /\ snd q = Event e).
