(** * ByteNetwork: the network of Network.v with links that carry bytes.

    Every client has a serializer of its own.  A client's send_message and receive are session.py:20-53; the router
    deserializes with the sender's serializer, lets the broker or the dealer work, and serializes every message it
    sends with the serializer of the recipient.  As in Network.v the main loop is ours: the router drops bytes it
    cannot deserialize and messages it cannot serialize.  Definitions only. *)
From Coq Require Import List ZArith Bool.
From Verif Require Import PyBase Messages Serializer Session Joiner Broker Dealer Network.
Import ListNotations.
Local Open Scope Z_scope.

(** A connected client: its serializer, its WAMPSession, the bytes on their way to the router and those on their way
    back, one item per message (oldest first; RawSocket or WebSocket keeps them apart, see C88). *)
Record bclient := mkBClient { bc_codec : codec; bc_session : session; bc_up : list bytes; bc_down : list bytes }.
Record bnet := mkBNet { bn_clients : list (Z * bclient); bn_broker : broker; bn_dealer : dealer }.
Definition bnet_init : bnet := mkBNet [] broker_init dealer_init.

Inductive waction :=
| WJoin (d : details) (c : codec)  (* the router admits a session that uses serializer [c] *)
| WLeave (s : Z)
| WSend (s : Z) (m : message)      (* client [s] calls send_message(m) and puts the bytes on the link *)
| WRoute (s : Z)                   (* the router takes the oldest bytes sent by [s] *)
| WDeliver (s : Z).                (* client [s] takes the oldest bytes sent to it: receive *)

(** What a [WDeliver] step shows: what the bytes deserialize to and what receive returned or raised. *)
Inductive bytes_out := WDelivered (d r : res message) | WQuiet.

(** The messages of [mail] that serializer [c] can encode. *)
Definition encoded (c : codec) (ms : list message) : list bytes :=
  flat_map (fun m => match serialize c m with Ok b => [b] | Raise _ => [] end) ms.
Definition bpost (posts : list routed) (cs : list (Z * bclient)) : list (Z * bclient) :=
  map (fun '(s, cl) =>
         (s, mkBClient (bc_codec cl) (bc_session cl) (bc_up cl) (bc_down cl ++ encoded (bc_codec cl) (mail posts s)))) cs.

Definition bytes_step (n : bnet) (a : waction) : bnet * bytes_out :=
  match a with
  | WJoin det c =>
      let (b', rb) := b_add_session (bn_broker n) det in
      let (d', rd) := d_add_session (bn_dealer n) det in
      match rb, rd with
      | Ok _, Ok _ => (mkBNet (zset (pyint_Z (det_session det)) (mkBClient c session_init [] []) (bn_clients n)) b' d', WQuiet)
      | _, _ => (n, WQuiet)
      end
  | WLeave s =>
      let (b', rb) := b_remove_session (bn_broker n) s in
      let (d', rd) := d_remove_session (bn_dealer n) s in
      match rb, rd with
      | Ok _, Ok _ => (mkBNet (zdel s (bn_clients n)) b' d', WQuiet)
      | _, _ => (n, WQuiet)
      end
  | WSend s m =>
      match zget s (bn_clients n) with
      | None => (n, WQuiet)
      | Some cl =>
          let (c', r) := send_message (bc_codec cl) (bc_session cl) m in
          let up := match r with Ok b => bc_up cl ++ [b] | Raise _ => bc_up cl end in
          (mkBNet (zset s (mkBClient (bc_codec cl) c' up (bc_down cl)) (bn_clients n)) (bn_broker n) (bn_dealer n), WQuiet)
      end
  | WRoute s =>
      match zget s (bn_clients n) with
      | Some (mkBClient c se (b :: up) down) =>
          let '(b', d', posts) :=
            match deserialize c b with
            | Ok m => route (bn_broker n) (bn_dealer n) s m
            | Raise _ => (bn_broker n, bn_dealer n, [])
            end in
          (mkBNet (bpost posts (zset s (mkBClient c se up down) (bn_clients n))) b' d', WQuiet)
      | _ => (n, WQuiet)
      end
  | WDeliver s =>
      match zget s (bn_clients n) with
      | Some (mkBClient c se up (b :: down)) =>
          let (se', r) := receive c se b in
          (mkBNet (zset s (mkBClient c se' up down) (bn_clients n)) (bn_broker n) (bn_dealer n), WDelivered (deserialize c b) r)
      | _ => (n, WQuiet)
      end
  end.

(** Executions, with the list of actions and what they showed, newest first. *)
Definition bytes_trace := list (waction * bytes_out).
Definition bytes_step_h (nh : bnet * bytes_trace) (a : waction) : bnet * bytes_trace :=
  let (n', o) := bytes_step (fst nh) a in (n', (a, o) :: snd nh).
Definition bytes_run (acts : list waction) : bnet * bytes_trace := fold_left bytes_step_h acts (bnet_init, []).
