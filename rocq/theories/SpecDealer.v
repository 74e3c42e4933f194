(** * SpecDealer: what a dealer should do, in terms of its history only (newest first).

    An entry is one call of the dealer's API with what it returned.  No dealer table is mentioned. *)
From Coq Require Import String List ZArith Bool.
From Verif Require Import PyBase Messages IdGen Joiner Broker SpecHistory.
Import ListNotations.
Local Open Scope string_scope.
Local Open Scope Z_scope.
Local Open Scope list_scope.

Inductive dop :=
| DJoin (d : details)                       (* add_session *)
| DLeave (s : Z)                            (* remove_session *)
| DMsg (s : Z) (m : message).               (* receive_message *)
Inductive dout :=
| DDone                                     (* returned None *)
| DRouted (r : routed)
| DExn (e : exn).
Definition dentry := (dop * dout)%type.
Definition dhistory := list dentry.

(** ** Membership *)
Definition d_joins s (e : dentry) := match e with (DJoin d, DDone) => pyint_Z (det_session d) =? s | _ => false end.
Definition d_left (e : dentry) : option Z := match e with (DLeave s, DDone) => Some s | _ => None end.
Definition d_leaves s (e : dentry) := match d_left e with Some s' => s' =? s | None => false end.
Definition d_member s (h : dhistory) : bool := since (d_joins s) (d_leaves s) h.

(** ** Registrations *)
(** The session got REGISTERED for a procedure: (session, procedure, registration id). *)
Definition registers (e : dentry) : option (Z * string * Z) :=
  match e with
  | (DMsg s (Register m), DRouted (mkRouted (Registered r) _)) => Some (s, rg_procedure m, pyint_Z (rd_registration r))
  | _ => None
  end.
(** The session got UNREGISTERED: (session, the id it named). *)
Definition unregisters (e : dentry) : option (Z * Z) :=
  match e with
  | (DMsg s (Unregister m), DRouted (mkRouted (Unregistered _) _)) => Some (s, pyint_Z (ur_registration m))
  | _ => None
  end.
(** Who holds [p] now, and under which id. *)
Fixpoint holder p (h : dhistory) : option (Z * Z) :=
  match h with
  | [] => None
  | e :: h' =>
      match registers e, unregisters e, d_left e, holder p h' with
      | Some (s, p', i), _, _, before => if String.eqb p' p then Some (s, i) else before
      | _, Some (s, i), _, Some (s', i') => if (s =? s') && (i =? i') then None else Some (s', i')
      | _, _, Some s, Some (s', i') => if s =? s' then None else Some (s', i')
      | _, _, _, before => before
      end
  end.

(** ** Calls *)
Definition wants (o : string) (d : dict) : bool := match sget o d with Some v => truthy v | None => false end.

(** A CALL was turned into an INVOCATION: (caller, CALL, invocation id, callee). *)
Definition invokes (e : dentry) : option (Z * call * Z * Z) :=
  match e with
  | (DMsg s (Call m), DRouted (mkRouted (Invocation iv) callee)) => Some (s, m, pyint_Z (iv_request iv), callee)
  | _ => None
  end.
(** A YIELD was turned into a RESULT: (invocation id, is it the last one, caller, request id of the CALL). *)
Definition results (e : dentry) : option (Z * bool * Z * Z) :=
  match e with
  | (DMsg _ (Yield m), DRouted (mkRouted (Result r) caller)) =>
      Some (pyint_Z (yi_request m), match sget "progress" (re_details r) with Some _ => false | None => true end,
            caller, pyint_Z (re_request r))
  | _ => None
  end.
(** An ERROR for an invocation was forwarded. *)
Definition fails (e : dentry) : option Z :=
  match e with
  | (DMsg _ (Error m), DRouted _) => Some (pyint_Z (er_request m))
  | _ => None
  end.
(** A YIELD on which the dealer broke down. *)
Definition crashes (e : dentry) : option Z :=
  match e with
  | (DMsg _ (Yield m), DExn KeyError) => Some (pyint_Z (yi_request m))
  | _ => None
  end.

(** The invocation that a further chunk of the progressive call ([s], [r]) belongs to: that of the last
    INVOCATION for it, unless a final RESULT for ([s], [r]) was returned since. *)
Fixpoint open_call s r (h : dhistory) : option Z :=
  match h with
  | [] => None
  | e :: h' =>
      match invokes e, results e with
      | Some (s', m, i, _), _ => if (s' =? s) && (pyint_Z (ca_request m) =? r) then Some i else open_call s r h'
      | _, Some (_, true, s', r') => if (s' =? s) && (r' =? r) then None else open_call s r h'
      | _, _ => open_call s r h'
      end
  end.
(** Does this CALL start a new invocation (or continue one)? *)
Definition fresh s (m : call) (h : dhistory) : bool :=
  negb (wants "progress" (ca_options m)) ||
  match open_call s (pyint_Z (ca_request m)) h with None => true | Some _ => false end.

(** An unanswered invocation. *)
Record waiting := mkWaiting { wt_caller : Z; wt_request : pyint; wt_callee : Z; wt_progressive : bool }.
(** Invocation [i] was sent for a CALL and has not got its final answer. *)
Fixpoint unanswered i (h : dhistory) : option waiting :=
  match h with
  | [] => None
  | e :: h' =>
      match invokes e, results e, fails e, crashes e with
      | Some (s, m, i', callee), _, _, _ =>
          if (i' =? i) && fresh s m h'
          then Some (mkWaiting s (ca_request m) callee (wants "receive_progress" (ca_options m)))
          else unanswered i h'
      | _, Some (i', true, _, _), _, _ => if i' =? i then None else unanswered i h'
      | _, _, Some i', _ => if i' =? i then None else unanswered i h'
      | _, _, _, Some i' => if i' =? i then None else unanswered i h'
      | _, _, _, _ => unanswered i h'
      end
  end.

(** ** Ids handed out so far *)
Definition d_takes_id (e : dentry) (older : dhistory) : bool :=
  match registers e, invokes e with
  | Some _, _ => true
  | _, Some (s, m, _, _) => fresh s m older
  | _, _ => false
  end.
Fixpoint d_ids_issued (h : dhistory) : Z :=
  match h with
  | [] => 0
  | e :: h' => d_ids_issued h' + (if d_takes_id e h' then 1 else 0)
  end.
(** Registration and invocation ids that anybody got to see. *)
Definition ids_seen (h : dhistory) : list Z :=
  flat_map (fun e => (match registers e with Some (_, _, i) => [i] | None => [] end) ++
                     (match invokes e with Some (_, _, i, _) => [i] | None => [] end)) h.

(** The ids that were handed out anew: by REGISTERED, and by INVOCATIONs of fresh calls. *)
Fixpoint new_ids (h : dhistory) : list Z :=
  match h with
  | [] => []
  | e :: h' =>
      (match registers e, invokes e with
       | Some (_, _, i), _ => [i]
       | _, Some (s, m, i, _) => if fresh s m h' then [i] else []
       | _, _ => []
       end) ++ new_ids h'
  end.
