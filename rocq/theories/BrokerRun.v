(** * BrokerRun: executions of a Broker and the history they leave (newest first).  Definitions only. *)
From Coq Require Import List ZArith Bool.
From Verif Require Import PyBase Messages Broker SpecBroker.
Import ListNotations.

Definition out_of {A} (f : A -> bout) (r : res A) : bout := match r with Ok a => f a | Raise e => OExn e end.

(** The user calls one method; exceptions are caught and the broker kept. *)
Definition bstep (b : broker) (o : bop) : broker * bout :=
  match o with
  | BJoin d => let (b', r) := b_add_session b d in (b', out_of (fun _ => ODone) r)
  | BLeave s => let (b', r) := b_remove_session b s in (b', out_of (fun _ => ODone) r)
  | BMsg s m => let (b', r) := b_receive_message b s m in (b', out_of ORouted r)
  | BPub s m => let (b', r) := b_receive_publish b s m in (b', out_of OPub r)
  end.

Definition bstep_h (bh : broker * bhistory) (o : bop) : broker * bhistory :=
  let (b', r) := bstep (fst bh) o in (b', (o, r) :: snd bh).

Definition brun (ops : list bop) : broker * bhistory := fold_left bstep_h ops (broker_init, []).

(** What the next call returns. *)
Definition banswer (b : broker) (o : bop) : bout := snd (bstep b o).
