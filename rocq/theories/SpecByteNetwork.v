(** * SpecByteNetwork: the object network that a byte network should look like.  Definitions only. *)
From Coq Require Import String List ZArith Bool.
From Verif Require Import PyBase Messages Serializer Codecs Joiner SpecSchema SpecCodec SpecNetwork Network ByteNetwork.
Import ListNotations.
Local Open Scope Z_scope.

(** A message with ids in 1..2^53 and contents that all three serializers carry. *)
Definition sendable (m : message) : Prop := wf_message m /\ portable (VList (marshal m)).

(** Clients use the serializers of the library and send sendable messages. *)
Definition usable (a : waction) : Prop :=
  match a with WJoin _ c => is_python_codec c | WSend _ m => sendable m | _ => True end.

(** The same schedule without serializers; messages are sent in normal form (args None before kwargs is []). *)
Definition erase (a : waction) : action :=
  match a with
  | WJoin d _ => AJoin d
  | WLeave s => ALeave s
  | WSend s m => ASend s (normalise m)
  | WRoute s => ARoute s
  | WDeliver s => ADeliver s
  end.
(** What the byte network has to show where the object network shows [o]. *)
Definition same_out (o : nout) (o' : bytes_out) : Prop :=
  match o, o' with
  | Delivered m r, WDelivered d r' => d = Ok m /\ r' = r
  | Quiet, WQuiet => True
  | _, _ => False
  end.

Definition same_trace (t : ntrace) (t' : bytes_trace) : Prop :=
  Forall2 (fun e e' => fst e = erase (fst e') /\ same_out (snd e) (snd e')) t t'.

(** How many items the router takes from its links. *)
Definition bytes_routings (acts : list waction) : Z :=
  Z.of_nat (length (filter (fun a => match a with WRoute _ => true | _ => false end) acts)).

(** No client sends two requests of the same kind with the same request id during one connection. *)
Definition bytes_no_reuse (hf : half) (acts : list waction) : Prop :=
  forall before s m1 between m2 after k r, acts = before ++ WSend s m1 :: between ++ WSend s m2 :: after ->
    in_half hf k = true -> asks m1 = Some (k, r) -> asks m2 = Some (k, r) -> In (WLeave s) between.
(** No session id is admitted twice. *)
Definition bytes_fresh_sessions (acts : list waction) : Prop :=
  NoDup (flat_map (fun a => match a with WJoin d _ => [pyint_Z (det_session d)] | _ => [] end) acts).
(** No progressive results. *)
Definition bytes_no_progress (acts : list waction) : Prop :=
  (forall s m, In (WSend s (Call m)) acts -> SpecDealer.wants "receive_progress" (ca_options m) = false) \/
  (forall s m, In (WSend s (Yield m)) acts -> SpecDealer.wants "progress" (yi_options m) = false).
Definition bytes_connected (s : Z) (n : bnet) : bool := zmem s (bn_clients n).
(** Nothing is in transit between [s] and the router. *)
Definition bytes_idle (s : Z) (n : bnet) : Prop := exists c se, zget s (bn_clients n) = Some (mkBClient c se [] []).
Definition bytes_got_answer (s : Z) (m : message) (t : bytes_trace) : Prop :=
  exists x, answers m x = true /\ In (WDeliver s, WDelivered (Ok x) (Ok x)) t.
Definition bytes_waiting (s : Z) (r : Z) (n : bnet) : Prop :=
  exists i inv, zget i (Dealer.d_pending (bn_dealer n)) = Some inv /\ Dealer.pi_caller inv = s /\ pyint_Z (Dealer.pi_request inv) = r.
(** Session [s] sent, while connected, a message with normal form [m]. *)
Definition bytes_sends (acts : list waction) (s : Z) (m : message) : Prop :=
  exists before m0 after, acts = before ++ WSend s m0 :: after /\ bytes_connected s (fst (bytes_run before)) = true /\ m = normalise m0.
