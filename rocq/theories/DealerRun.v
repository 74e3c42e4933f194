(** * DealerRun: executions of a Dealer and the history they leave (newest first).  Definitions only. *)
From Coq Require Import List ZArith Bool.
From Verif Require Import PyBase Messages Broker Dealer SpecDealer.
Import ListNotations.

Definition d_out_of {A} (f : A -> dout) (r : res A) : dout := match r with Ok a => f a | Raise e => DExn e end.

(** The user calls one method; exceptions are caught and the dealer kept. *)
Definition dstep (d : dealer) (o : dop) : dealer * dout :=
  match o with
  | DJoin det => let (d', r) := d_add_session d det in (d', d_out_of (fun _ => DDone) r)
  | DLeave s => let (d', r) := d_remove_session d s in (d', d_out_of (fun _ => DDone) r)
  | DMsg s m => let (d', r) := d_receive_message d s m in (d', d_out_of DRouted r)
  end.

Definition dstep_h (dh : dealer * dhistory) (o : dop) : dealer * dhistory :=
  let (d', r) := dstep (fst dh) o in (d', (o, r) :: snd dh).

Definition drun (ops : list dop) : dealer * dhistory := fold_left dstep_h ops (dealer_init, []).

(** What the next call returns. *)
Definition danswer (d : dealer) (o : dop) : dout := snd (dstep d o).
