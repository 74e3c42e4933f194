(** * SpecNetwork: which schedules the network theorems speak about.  Definitions only. *)
From Coq Require Import String List ZArith Bool.
From Verif Require Import PyBase Messages Joiner Dealer SpecDealer Network.
Import ListNotations.
Local Open Scope Z_scope.

(** The kinds of request a client makes, each with a request id of its own. *)
Inductive request_kind := RSub | RUnsub | RPub | RReg | RUnreg | RCall.

Definition kind_eqb (a b : request_kind) : bool :=
  match a, b with
  | RSub, RSub | RUnsub, RUnsub | RPub, RPub | RReg, RReg | RUnreg, RUnreg | RCall, RCall => true
  | _, _ => false
  end.

Definition asks (m : message) : option (request_kind * Z) :=
  match m with
  | Subscribe x => Some (RSub, pyint_Z (su_request x))
  | Unsubscribe x => Some (RUnsub, pyint_Z (us_request x))
  | Publish x => Some (RPub, pyint_Z (pb_request x))
  | Register x => Some (RReg, pyint_Z (rg_request x))
  | Unregister x => Some (RUnreg, pyint_Z (ur_request x))
  | Call x => Some (RCall, pyint_Z (ca_request x))
  | _ => None
  end.

(** The two halves of the protocol. *)
Inductive half := PubSub | Rpc.
Definition in_half (hf : half) (k : request_kind) : bool :=
  match hf, k with
  | PubSub, (RSub | RUnsub | RPub) | Rpc, (RReg | RUnreg | RCall) => true
  | _, _ => false
  end.
Definition message_half (m : message) : option half :=
  match m with
  | Event _ | Subscribed _ | Unsubscribed _ | Published _ => Some PubSub
  | Invocation _ | Registered _ | Unregistered _ | Result _ | Error _ => Some Rpc
  | _ => None
  end.

(** Action [a] is the sending of [m] by client [s]. *)
Definition sending (a : action) (s : Z) (m : message) : Prop := a = ASend s m \/ a = APut s m.
(** Client [s] sent [m] at some time. *)
Definition has_sent (acts : list action) (s : Z) (m : message) : Prop := In (ASend s m) acts \/ In (APut s m) acts.

(** How many messages the router takes from its links in [acts]. *)
Definition is_route (a : action) : bool := match a with ARoute _ => true | _ => false end.
Definition routings (acts : list action) : Z := Z.of_nat (length (filter is_route acts)).

(** All clients use WAMPSession, and none sends two requests of the same kind with the same request id during one connection. *)
Definition no_reuse (hf : half) (acts : list action) : Prop :=
  (forall s m, ~ In (APut s m) acts) /\
  forall before s m1 between m2 after k r, acts = before ++ ASend s m1 :: between ++ ASend s m2 :: after ->
    in_half hf k = true -> asks m1 = Some (k, r) -> asks m2 = Some (k, r) -> In (ALeave s) between.

(** No session id is admitted twice. *)
Definition joined (acts : list action) : list Z :=
  flat_map (fun a => match a with AJoin d => [pyint_Z (det_session d)] | _ => [] end) acts.
Definition fresh_sessions (acts : list action) : Prop := NoDup (joined acts).

(** No progressive results: no caller asks for them, or no callee sends them. *)
Definition no_progress (acts : list action) : Prop :=
  (forall s m, has_sent acts s (Call m) -> wants "receive_progress" (ca_options m) = false) \/
  (forall s m, has_sent acts s (Yield m) -> wants "progress" (yi_options m) = false).

(** The same, asked of session [s] alone: it uses WAMPSession and sends no two requests of the same kind with the same request id during one
    connection, ... *)
Definition no_reuse_by (hf : half) (s : Z) (acts : list action) : Prop :=
  (forall m, ~ In (APut s m) acts) /\
  forall before m1 between m2 after k r, acts = before ++ ASend s m1 :: between ++ ASend s m2 :: after ->
    in_half hf k = true -> asks m1 = Some (k, r) -> asks m2 = Some (k, r) -> In (ALeave s) between.
(** ... is admitted at most once, ... *)
Definition admitted_once (s : Z) (acts : list action) : Prop := (count_occ Z.eq_dec (joined acts) s <= 1)%nat.
(** ... and gets no progressive results: it does not ask for them, or no callee sends them. *)
Definition no_progress_to (s : Z) (acts : list action) : Prop :=
  (forall m, has_sent acts s (Call m) -> wants "receive_progress" (ca_options m) = false) \/
  (forall s' m, has_sent acts s' (Yield m) -> wants "progress" (yi_options m) = false).
(** What half [hf] asks of one client; nothing is asked of the others. *)
Definition disciplined (hf : half) (s : Z) (acts : list action) : Prop :=
  no_reuse_by hf s acts /\ (hf = Rpc -> admitted_once s acts /\ no_progress_to s acts).

(** [x] is the router's answer to request [m]. *)
Definition answers (m x : message) : bool :=
  match m, x with
  | Subscribe a, Subscribed b => pyint_Z (su_request a) =? pyint_Z (sd_request b)
  | Unsubscribe a, Unsubscribed b => pyint_Z (us_request a) =? pyint_Z (ud_request b)
  | Unsubscribe a, Error b => (pyint_Z (er_type b) =? 34) && (pyint_Z (us_request a) =? pyint_Z (er_request b))
  | Unregister a, Unregistered b => pyint_Z (ur_request a) =? pyint_Z (un_request b)
  | Unregister a, Error b => (pyint_Z (er_type b) =? 66) && (pyint_Z (ur_request a) =? pyint_Z (er_request b))
  | Publish a, Published b => pyint_Z (pb_request a) =? pyint_Z (pd_request b)
  | Register a, Registered b => pyint_Z (rg_request a) =? pyint_Z (rd_request b)
  | Register a, Error b => (pyint_Z (er_type b) =? 64) && (pyint_Z (rg_request a) =? pyint_Z (er_request b))
  | Call a, Result b => pyint_Z (ca_request a) =? pyint_Z (re_request b)
  | Call a, Error b => (pyint_Z (er_type b) =? 48) && (pyint_Z (ca_request a) =? pyint_Z (er_request b))
  | _, _ => false
  end.
Definition connected (s : Z) (n : net) : bool := zmem s (nt_clients n).
Definition idle (s : Z) (n : net) : Prop := exists c, zget s (nt_clients n) = Some (mkClient c [] []).
(** Session [s] received an answer to [m] and accepted it. *)
Definition got_answer (s : Z) (m : message) (t : ntrace) : Prop :=
  exists x, answers m x = true /\ In (ADeliver s, Delivered x (Ok x)) t.
(** The dealer still waits for the callee's answer to the call [r] of [s]. *)
Definition waiting (s : Z) (r : Z) (n : net) : Prop :=
  exists i inv, zget i (d_pending (nt_dealer n)) = Some inv /\ pi_caller inv = s /\ pyint_Z (pi_request inv) = r.

(** Session [s] sent [m] during [acts], while connected. *)
Definition sends (acts : list action) (s : Z) (m : message) : Prop :=
  exists before a after, acts = before ++ a :: after /\ sending a s m /\ connected s (fst (nrun before)) = true.

(** What a message delivered to session [s] goes back to, [sent] being what clients have sent: requests of [s] itself,
    and payloads that other clients sent to the topic or procedure that [s] asked for, unchanged. *)
Definition comes_from (sent : Z -> message -> Prop) (s : Z) (m : message) : Prop :=
  match m with
  | Subscribed x => exists q, sent s (Subscribe q) /\ su_request q = sd_request x
  | Unsubscribed x => exists q, sent s (Unsubscribe q) /\ us_request q = ud_request x
  | Published x => exists q, sent s (Publish q) /\ pb_request q = pd_request x /\ wants "acknowledge" (pb_options q) = true
  | Event x => exists s' p q, sent s' (Publish p) /\ sent s (Subscribe q) /\ su_topic q = pb_topic p /\
      ev_args x = pb_args p /\ ev_kwargs x = pb_kwargs p /\ ev_details x = []
  | Registered x => exists q, sent s (Register q) /\ rg_request q = rd_request x
  | Unregistered x => exists q, sent s (Unregister q) /\ ur_request q = un_request x
  | Invocation x => exists s' c q, sent s' (Call c) /\ sent s (Register q) /\ rg_procedure q = ca_procedure c /\
      iv_args x = ca_args c /\ iv_kwargs x = ca_kwargs c
  | Result x => exists c s' q y, sent s (Call c) /\ ca_request c = re_request x /\
      sent s' (Register q) /\ rg_procedure q = ca_procedure c /\
      sent s' (Yield y) /\ re_args x = yi_args y /\ re_kwargs x = yi_kwargs y
  | Error x =>
      (exists q, sent s (Register q) /\
         x = mkError (PyInt 64) (rg_request q) "wamp.error.procedure_already_exists" None None []) \/
      (exists c, sent s (Call c) /\
         (x = mkError (PyInt 48) (ca_request c) "wamp.error.no_such_procedure" None None [] \/
          exists s' e, sent s' (Error e) /\ pyint_Z (er_type e) = 68 /\
            x = mkError (PyInt 48) (ca_request c) (er_uri e) (er_args e) (er_kwargs e) (er_details e)))
  | _ => False
  end.

(** Session [s] receives [x] when [a2] follows [a1]. *)
Definition receives (a1 : list action) (s : Z) (x : message) (a2 : list action) : Prop :=
  exists b1 b2 r, a2 = b1 ++ ADeliver s :: b2 /\ snd (nstep (fst (nrun (a1 ++ b1))) (ADeliver s)) = Delivered x r.
(** ... and accepts it. *)
Definition accepts (a1 : list action) (s : Z) (x : message) (a2 : list action) : Prop :=
  exists b1 b2, a2 = b1 ++ ADeliver s :: b2 /\ snd (nstep (fst (nrun (a1 ++ b1))) (ADeliver s)) = Delivered x (Ok x).

(** The id that answer [x] gives to the subscriber or callee that sent [m]. *)
Definition grants (m x : message) : option Z :=
  match m, x with
  | Subscribe a, Subscribed b => if pyint_Z (su_request a) =? pyint_Z (sd_request b) then Some (pyint_Z (sd_subscription b)) else None
  | Register a, Registered b => if pyint_Z (rg_request a) =? pyint_Z (rd_request b) then Some (pyint_Z (rd_registration b)) else None
  | _, _ => None
  end.
(** Message [u] asks to end the subscription or registration [i]. *)
Definition ends (i : Z) (m u : message) : bool :=
  match m, u with
  | Subscribe _, Unsubscribe x => pyint_Z (us_subscription x) =? i
  | Register _, Unregister x => pyint_Z (ur_registration x) =? i
  | _, _ => false
  end.
(** Session [s] stays and does not ask to end [i]. *)
Definition keeps_on (s i : Z) (m : message) (acts : list action) : Prop :=
  ~ In (ALeave s) acts /\ forall u, In (ASend s u) acts -> ends i m u = false.
(** In [acts], [s] sent [m], was given [i] for it, and kept on since. *)
Definition holding (s : Z) (m : message) (i : Z) (acts : list action) : Prop :=
  exists a1 a2 x, acts = a1 ++ ASend s m :: a2 /\ connected s (fst (nrun a1)) = true /\ keeps_on s i m a2 /\
    receives (a1 ++ [ASend s m]) s x a2 /\ grants m x = Some i.

(** [u] answers the invocation with request id [j]: a YIELD, or an ERROR for an INVOCATION. *)
Definition replies (j : Z) (u : message) : bool :=
  match u with
  | Yield y => pyint_Z (yi_request y) =? j
  | Error e => (pyint_Z (er_type e) =? 68) && (pyint_Z (er_request e) =? j)
  | _ => false
  end.
(** What the caller that sent [c] should get when the callee answered [u]. *)
Definition reply_to (c : call) (u : message) : message :=
  match u with
  | Yield y => Result (mkResult (ca_request c) (yi_args y) (yi_kwargs y) [] no_payload)
  | Error e => Error (mkError (PyInt 48) (ca_request c) (er_uri e) (er_args e) (er_kwargs e) (er_details e))
  | _ => u
  end.
(** [u], sent by [x], may end invocation [j] of callee [s]: a YIELD of the callee, or an ERROR of anyone (cf. C63). *)
Definition may_end (s j x : Z) (u : message) : bool := match u with Yield _ => (x =? s) && replies j u | _ => replies j u end.
Definition no_reply (s j : Z) (acts : list action) : Prop := forall x u, has_sent acts x u -> may_end s j x u = false.

(** What session [s] received in trace [t], newest first. *)
Definition inbox (s : Z) (t : ntrace) : list message :=
  flat_map (fun e => match e with
                     | (ADeliver s', Delivered m _) => if s' =? s then [m] else []
                     | _ => []
                     end) t.
Definition publications (ms : list message) : list Z :=
  flat_map (fun m => match m with Event e => [pyint_Z (ev_publication e)] | _ => [] end) ms.
Definition invocation_ids (ms : list message) : list Z :=
  flat_map (fun m => match m with Invocation v => [pyint_Z (iv_request v)] | _ => [] end) ms.
