(** * SpecHostile: what is asked of the clients concerned, and of nobody else, in a network with hostile clients.
    Definitions only. *)
From Coq Require Import String List ZArith Bool.
From Verif Require Import PyBase Messages Serializer Codecs Session Joiner Network SpecDealer SpecNetwork ByteNetwork SpecByteNetwork HostileNetwork.
Import ListNotations.
Local Open Scope Z_scope.

(** Whenever it is connected, session [s] is a client of this library: it uses one of the three serializers, and all it sends
    are [sendable] messages given to send_message.  Nothing is asked of the other sessions: they use any serializer
    (any pair of functions), and put any bytes on their links. *)
Definition honest (s : Z) (acts : list haction) : Prop :=
  Forall (fun a => match a with
                   | HAct (WJoin d c) => pyint_Z (det_session d) = s -> is_python_codec c
                   | HAct (WSend s' m) => s' = s -> sendable m
                   | HPut s' _ => s' <> s
                   | _ => True
                   end) acts.

(** What half [hf] of the protocol asks of session [s] besides: it does not send two requests of the same kind with the same id
    during one connection, and for RPC it is admitted at most once and does not ask for progressive results. *)
Definition h_joined (acts : list haction) : list Z :=
  flat_map (fun a => match a with HAct (WJoin d _) => [pyint_Z (det_session d)] | _ => [] end) acts.
Definition h_disciplined (hf : half) (s : Z) (acts : list haction) : Prop :=
  (forall before m1 between m2 after k r, acts = before ++ HAct (WSend s m1) :: between ++ HAct (WSend s m2) :: after ->
     in_half hf k = true -> asks m1 = Some (k, r) -> asks m2 = Some (k, r) -> In (HAct (WLeave s)) between) /\
  (hf = Rpc -> (count_occ Z.eq_dec (h_joined acts) s <= 1)%nat /\
               forall m, In (HAct (WSend s (Call m))) acts -> wants "receive_progress" (ca_options m) = false).

(** How many items the router takes from its links. *)
Definition h_routings (acts : list haction) : Z :=
  Z.of_nat (length (filter (fun a => match a with HAct (WRoute _) => true | _ => false end) acts)).

Definition h_got_answer (s : Z) (m : message) (t : htrace) : Prop :=
  exists x, answers m x = true /\ In (HAct (WDeliver s), WDelivered (Ok x) (Ok x)) t.
(** Session [s] receives bytes that deserialize to [x] when [a2] follows [a1]. *)
Definition h_receives (a1 : list haction) (s : Z) (x : message) (a2 : list haction) : Prop :=
  exists b1 b2 r, a2 = b1 ++ HAct (WDeliver s) :: b2 /\ snd (hstep (fst (hrun (a1 ++ b1))) (HAct (WDeliver s))) = WDelivered (Ok x) r.
(** ... and accepts them. *)
Definition h_accepts (a1 : list haction) (s : Z) (x : message) (a2 : list haction) : Prop :=
  exists b1 b2, a2 = b1 ++ HAct (WDeliver s) :: b2 /\ snd (hstep (fst (hrun (a1 ++ b1))) (HAct (WDeliver s))) = WDelivered (Ok x) (Ok x).
(** Session [s] stays and does not ask to end [i]. *)
Definition h_keeps_on (s i : Z) (m : message) (acts : list haction) : Prop :=
  ~ In (HAct (WLeave s)) acts /\ forall u, In (HAct (WSend s u)) acts -> ends i m u = false.
(** In [acts], [s] sent [m], was given [i] for it, and kept on since. *)
Definition h_holding (s : Z) (m : message) (i : Z) (acts : list haction) : Prop :=
  exists a1 a2 x, acts = a1 ++ HAct (WSend s m) :: a2 /\ bytes_connected s (fst (hrun a1)) = true /\ h_keeps_on s i m a2 /\
    h_receives (a1 ++ [HAct (WSend s m)]) s x a2 /\ grants m x = Some i.

(** Action number [k] of [acts] puts on the link of [x] bytes that the router reads as [u]. *)
Definition puts_at (acts : list haction) (k : nat) (x : Z) (u : message) : Prop :=
  exists cl b, zget x (bn_clients (fst (hrun (firstn k acts)))) = Some cl /\ deserialize (bc_codec cl) b = Ok u /\
    (nth_error acts k = Some (HPut x b) \/
     exists m, nth_error acts k = Some (HAct (WSend x m)) /\ snd (send_message (bc_codec cl) (bc_session cl) m) = Ok b).
(** Only action number [k] puts a message on a link that may end the invocation [j] of callee [s]. *)
Definition h_only_reply (s j : Z) (k : nat) (acts : list haction) : Prop :=
  forall k' x u, puts_at acts k' x u -> k' <> k -> may_end s j x u = false.
