(** * HostileNetwork: the byte network of ByteNetwork.v in which a client may put any bytes on its link.

    ByteNetwork.v lets clients send what WAMPSession.send_message (session.py:20-49) returns.  A client that is not
    written with this library, or is out to do harm, can send anything: [HPut].  The router and the links are those of
    ByteNetwork.v.  Definitions only. *)
From Coq Require Import List ZArith Bool.
From Verif Require Import PyBase Messages Serializer Session Joiner Broker Dealer Network ByteNetwork.
Import ListNotations.
Local Open Scope Z_scope.

Inductive haction :=
| HAct (a : waction)
| HPut (s : Z) (b : bytes).  (* whatever is connected as [s] puts [b] on its link to the router *)

Definition hstep (n : bnet) (a : haction) : bnet * bytes_out :=
  match a with
  | HAct a => bytes_step n a
  | HPut s b =>
      match zget s (bn_clients n) with
      | None => (n, WQuiet)
      | Some cl =>
          (mkBNet (zset s (mkBClient (bc_codec cl) (bc_session cl) (bc_up cl ++ [b]) (bc_down cl)) (bn_clients n)) (bn_broker n) (bn_dealer n), WQuiet)
      end
  end.

(** Executions, with the list of actions and what they showed, newest first. *)
Definition htrace := list (haction * bytes_out).
Definition hstep_h (nh : bnet * htrace) (a : haction) : bnet * htrace :=
  let (n', o) := hstep (fst nh) a in (n', (a, o) :: snd nh).
Definition hrun (acts : list haction) : bnet * htrace := fold_left hstep_h acts (bnet_init, []).
