(** * Network: any number of WAMPSession clients connected by FIFO links to a router made of one Broker and one Dealer.

    The repository contains the pieces (session.py, broker.py, dealer.py) but no main loop; this file wires the modelled
    pieces together the way their APIs suggest.  Links carry message objects: that a message survives serialization is
    stated separately (C10), and ByteNetwork.v has links that carry bytes.  The router drops a message whose processing raises.  Definitions only. *)
From Coq Require Import List ZArith Bool.
From Verif Require Import PyBase Messages Session Joiner Broker Dealer.
Import ListNotations.
Local Open Scope Z_scope.

(** A connected client: its WAMPSession (unused by a client written otherwise), the messages on their way to the router and those on their way back
    (oldest first). *)
Record client := mkClient { cl_session : session; cl_up : list message; cl_down : list message }.

Record net := mkNet { nt_clients : list (Z * client); nt_broker : broker; nt_dealer : dealer }.
Definition net_init : net := mkNet [] broker_init dealer_init.

Inductive action :=
| AJoin (d : details)          (* the router admits a session: add_session on broker and dealer, new WAMPSession *)
| ALeave (s : Z)               (* the connection of [s] is gone: remove_session, links dropped *)
| ASend (s : Z) (m : message)  (* client [s] calls send_message(m) *)
| ARoute (s : Z)               (* the router takes the oldest message sent by [s] and processes it *)
| ADeliver (s : Z)             (* client [s] takes the oldest message sent to it: receive_message *)
| APut (s : Z) (m : message).  (* whatever is connected as [s] sends [m], without asking a WAMPSession: a foreign client *)

(** What a [ADeliver] step shows: the message and what receive_message returned or raised. *)
Inductive nout := Delivered (m : message) (r : res message) | Quiet.

(** What the router does with message [m] of session [s]: new broker, new dealer, messages to send (in order).
    broker.py:46-101 (receive_message, receive_publish), dealer.py:67-194 (receive_message). *)
Definition route (b : broker) (d : dealer) (s : Z) (m : message) : broker * dealer * list routed :=
  match m with
  | Subscribe _ | Unsubscribe _ =>
      let (b', r) := b_receive_message b s m in
      (b', d, match r with Ok rt => [rt] | Raise _ => [] end)
  | Publish p =>
      let (b', r) := b_receive_publish b s p in
      (b', d, match r with
              | Ok pub =>
                  match pu_ack pub with Some rt => [rt] | None => [] end ++
                  match pu_event pub with
                  | Some ev => map (fun c => mkRouted (Event ev) c) (pu_recipients pub)
                  | None => []
                  end
              | Raise _ => []
              end)
  | Call _ | Yield _ | Register _ | Unregister _ | Error _ =>
      let (d', r) := d_receive_message d s m in
      (b, d', match r with Ok rt => [rt] | Raise _ => [] end)
  | _ => (b, d, [])
  end.

(** Each message is appended to the link of the session it is addressed to, if that session is connected. *)
Definition mail (posts : list routed) (s : Z) : list message :=
  map rt_message (filter (fun p => rt_recipient p =? s) posts).
Definition post (posts : list routed) (cs : list (Z * client)) : list (Z * client) :=
  map (fun '(s, cl) => (s, mkClient (cl_session cl) (cl_up cl) (cl_down cl ++ mail posts s))) cs.

Definition nstep (n : net) (a : action) : net * nout :=
  match a with
  | AJoin det =>
      let (b', rb) := b_add_session (nt_broker n) det in
      let (d', rd) := d_add_session (nt_dealer n) det in
      match rb, rd with
      | Ok _, Ok _ => (mkNet (zset (pyint_Z (det_session det)) (mkClient session_init [] []) (nt_clients n)) b' d', Quiet)
      | _, _ => (n, Quiet)
      end
  | ALeave s =>
      let (b', rb) := b_remove_session (nt_broker n) s in
      let (d', rd) := d_remove_session (nt_dealer n) s in
      match rb, rd with
      | Ok _, Ok _ => (mkNet (zdel s (nt_clients n)) b' d', Quiet)
      | _, _ => (n, Quiet)
      end
  | ASend s m =>
      match zget s (nt_clients n) with
      | None => (n, Quiet)
      | Some cl =>
          let (c', r) := send_track (cl_session cl) m in
          let up := match r with Ok _ => cl_up cl ++ [m] | Raise _ => cl_up cl end in
          (mkNet (zset s (mkClient c' up (cl_down cl)) (nt_clients n)) (nt_broker n) (nt_dealer n), Quiet)
      end
  | ARoute s =>
      match zget s (nt_clients n) with
      | Some (mkClient c (m :: up) down) =>
          let '(b', d', posts) := route (nt_broker n) (nt_dealer n) s m in
          (mkNet (post posts (zset s (mkClient c up down) (nt_clients n))) b' d', Quiet)
      | _ => (n, Quiet)
      end
  | ADeliver s =>
      match zget s (nt_clients n) with
      | Some (mkClient c up (m :: down)) =>
          let (c', r) := receive_message c m in
          (mkNet (zset s (mkClient c' up down) (nt_clients n)) (nt_broker n) (nt_dealer n), Delivered m r)
      | _ => (n, Quiet)
      end
  | APut s m =>
      match zget s (nt_clients n) with
      | None => (n, Quiet)
      | Some cl => (mkNet (zset s (mkClient (cl_session cl) (cl_up cl ++ [m]) (cl_down cl)) (nt_clients n)) (nt_broker n) (nt_dealer n), Quiet)
      end
  end.

(** Executions, with the list of actions and what they showed, newest first. *)
Definition ntrace := list (action * nout).
Definition nstep_h (nh : net * ntrace) (a : action) : net * ntrace :=
  let (n', o) := nstep (fst nh) a in (n', (a, o) :: snd nh).
Definition nrun (acts : list action) : net * ntrace := fold_left nstep_h acts (net_init, []).
