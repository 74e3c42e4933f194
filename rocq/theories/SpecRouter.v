(** * SpecRouter: a broker and a dealer as one would write them down on one page.

    They keep only what a user can see: who is a member, who is subscribed or registered under which id, which invocations
    wait for an answer, and how many ids were handed out.  [None] as an answer means that the call is refused. *)
From Coq Require Import String List ZArith Bool.
From Verif Require Import PyBase Messages Joiner Broker SpecBroker Dealer SpecDealer.
Import ListNotations.
Local Open Scope string_scope.
Local Open Scope Z_scope.
Local Open Scope list_scope.

Definition among (s : Z) (l : list Z) : bool := existsb (Z.eqb s) l.

(** ** Broker *)
Record rbroker := mkRB {
  rb_members : list Z;
  rb_topics : list (string * (Z * list Z));      (* topic: subscription id, subscribers in the order in which they came *)
  rb_used : Z }.                                  (* ids 1..used were handed out *)
Definition rb_init : rbroker := mkRB [] [] 0.

(** Change the subscribers of every topic; topics without subscribers disappear. *)
Definition resubscribe (f : Z -> list Z -> list Z) (ts : list (string * (Z * list Z))) : list (string * (Z * list Z)) :=
  filter (fun e => match snd (snd e) with [] => false | _ => true end)
    (map (fun e => (fst e, (fst (snd e), f (fst (snd e)) (snd (snd e))))) ts).

Definition rb_step (b : rbroker) (o : bop) : rbroker * option bout :=
  let '(mkRB ms ts n) := b in
  match o with
  | BJoin d =>
      let s := pyint_Z (det_session d) in
      if among s ms then (b, None) else (mkRB (ms ++ [s]) ts n, Some ODone)
  | BLeave s =>
      if among s ms then (mkRB (without s ms) (resubscribe (fun _ => without s) ts) n, Some ODone) else (b, None)
  | BMsg s (Subscribe m) =>
      let subscribed i := Some (ORouted (mkRouted (Subscribed (mkSubscribed (su_request m) (PyInt i))) s)) in
      if among s ms then
        match tget (su_topic m) ts with
        | Some (i, ss) => (mkRB ms (tset (su_topic m) (i, if among s ss then ss else ss ++ [s]) ts) n, subscribed i)
        | None => (mkRB ms (tset (su_topic m) (n + 1, [s]) ts) (n + 1), subscribed (n + 1))
        end
      else (b, None)
  | BMsg s (Unsubscribe m) =>
      let i := pyint_Z (us_subscription m) in
      if existsb (fun e => (fst (snd e) =? i) && among s (snd (snd e))) ts then
        (mkRB ms (resubscribe (fun j ss => if j =? i then without s ss else ss) ts) n,
         Some (ORouted (mkRouted (Unsubscribed (mkUnsubscribed (us_request m))) s)))
      else (b, None)
  | BMsg _ _ => (b, None)
  | BPub s m =>
      if among s ms then
        (mkRB ms ts (n + 1),
         Some (OPub (mkPublication
           (match tget (pb_topic m) ts with
            | Some (i, _) => Some (mkEvent (PyInt i) (PyInt (n + 1)) (pb_args m) (pb_kwargs m) [])
            | None => None end)
           (match tget (pb_topic m) ts with Some (_, ss) => ss | None => [] end)
           (if wants "acknowledge" (pb_options m)
            then Some (mkRouted (Published (mkPublished (pb_request m) (PyInt (n + 1)))) s) else None))))
      else (b, None)
  end.
Definition rb_run (ops : list bop) : rbroker := fold_left (fun b o => fst (rb_step b o)) ops rb_init.

(** ** Dealer *)
Record rdealer := mkRD {
  rd_members : list Z;
  rd_procedures : list (string * (Z * Z));       (* procedure: callee, registration id *)
  rd_waiting : list (Z * waiting);                (* invocation id: who waits for it *)
  rd_open : list ((Z * Z) * Z);                   (* caller, request id of its CALL: invocation for further chunks *)
  rd_used : Z }.
Definition rd_init : rdealer := mkRD [] [] [] [] 0.

Definition rd_step (d : rdealer) (o : dop) : rdealer * option dout :=
  let '(mkRD ms ps ws os n) := d in
  let send m s := Some (DRouted (mkRouted m s)) in
  match o with
  | DJoin det =>
      let s := pyint_Z (det_session det) in
      if among s ms then (d, None) else (mkRD (ms ++ [s]) ps ws os n, Some DDone)
  | DLeave s =>
      if among s ms then (mkRD (without s ms) (filter (fun e => negb (fst (snd e) =? s)) ps) ws os n, Some DDone) else (d, None)
  | DMsg s (Register m) =>
      if among s ms then
        match tget (rg_procedure m) ps with
        | Some _ => (d, send (Error (mkError (PyInt 64) (rg_request m) "wamp.error.procedure_already_exists" None None [])) s)
        | None => (mkRD ms (tset (rg_procedure m) (s, n + 1) ps) ws os (n + 1),
                   send (Registered (mkRegistered (rg_request m) (PyInt (n + 1)))) s)
        end
      else (d, None)
  | DMsg s (Unregister m) =>
      let mine e := (fst (snd e) =? s) && (snd (snd e) =? pyint_Z (ur_registration m)) in
      if existsb mine ps then
        (mkRD ms (filter (fun e => negb (mine e)) ps) ws os n, send (Unregistered (mkUnregistered (ur_request m))) s)
      else (d, None)
  | DMsg s (Call m) =>
      match tget (ca_procedure m) ps with
      | None => (d, send (Error (mkError (PyInt 48) (ca_request m) "wamp.error.no_such_procedure" None None [])) s)
      | Some (callee, g) =>
          let details :=
            (if wants "receive_progress" (ca_options m) then [(VStr "receive_progress", VBool true)] else []) ++
            (if wants "progress" (ca_options m) then [(VStr "progress", VBool true)] else []) in
          let invocation i :=
            send (Invocation (mkInvocation (PyInt i) (PyInt g) (ca_args m) (ca_kwargs m) details
                    (mkBin (bp_serializer (ca_bin m)) (bp_payload (ca_bin m)) false))) callee in
          match (if wants "progress" (ca_options m) then zzget (s, pyint_Z (ca_request m)) os else None) with
          | Some i => (d, invocation i)
          | None =>
              (mkRD ms ps (zset (n + 1) (mkWaiting s (ca_request m) callee (wants "receive_progress" (ca_options m))) ws)
                 (zzset (s, pyint_Z (ca_request m)) (n + 1) os) (n + 1),
               invocation (n + 1))
          end
      end
  | DMsg s (Yield m) =>
      let i := pyint_Z (yi_request m) in
      match zget i ws with
      | None => (d, None)
      | Some w =>
          let result details := send (Result (mkResult (wt_request w) (yi_args m) (yi_kwargs m) details no_payload)) (wt_caller w) in
          let call := (wt_caller w, pyint_Z (wt_request w)) in
          if negb (wt_callee w =? s) then (d, None)
          else if wants "progress" (yi_options m) && wt_progressive w then
            (d, result (match sget "progress" (yi_options m) with Some v => [(VStr "progress", v)] | None => [] end))
          else if zzmem call os then (mkRD ms ps (zdel i ws) (zzdel call os) n, result [])
          else (mkRD ms ps (zdel i ws) os n, Some (DExn KeyError))
      end
  | DMsg _ (Error m) =>
      let i := pyint_Z (er_request m) in
      if pyint_Z (er_type m) =? 68 then
        match zget i ws with
        | None => (d, None)
        | Some w =>
            (mkRD ms ps (zdel i ws) os n,
             send (Error (mkError (PyInt 48) (wt_request w) (er_uri m) (er_args m) (er_kwargs m) (er_details m))) (wt_caller w))
        end
      else (d, None)
  | DMsg _ _ => (d, None)
  end.
Definition rd_run (ops : list dop) : rdealer := fold_left (fun d o => fst (rd_step d o)) ops rd_init.

(** The code does what the reference does; where that refuses, the code raises a ValueError with a text. *)
Definition b_agrees (want : option bout) (got : bout) : Prop :=
  match want with Some r => got = r | None => exists text, got = OExn (ValueError [text]) end.
Definition d_agrees (want : option dout) (got : dout) : Prop :=
  match want with Some r => got = r | None => exists text, got = DExn (ValueError [text]) end.

(** The same answer, but for the texts of ValueErrors. *)
Definition same_b (x y : bout) : Prop := match x, y with OExn e, OExn f => exists t u, e = ValueError [t] /\ f = ValueError [u] | _, _ => y = x end.
Definition same_d (x y : dout) : Prop :=
  match x, y with DExn e, DExn f => f = e \/ exists t u, e = ValueError [t] /\ f = ValueError [u] | _, _ => y = x end.
