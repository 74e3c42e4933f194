(** * Dealer: wampproto/dealer.py.  Definitions only.

    Session ids are [Z] as in Broker.v.  [Registration] objects are mutable and shared between two tables, so they
    live in a heap.  [PendingInvocation] objects are never modified, so they are stored by value. *)
From Coq Require Import String Ascii List ZArith Bool.
From Verif Require Import PyBase Messages IdGen Joiner Broker.
Import ListNotations.
Local Open Scope string_scope.
Local Open Scope Z_scope.
Local Open Scope list_scope.

(** dealer.py:5-6 *)
Definition OPTION_RECEIVE_PROGRESS : string := "receive_progress".
Definition OPTION_PROGRESS : string := "progress".

(** dealer.py:9-15.  The two flags hold whatever value the caller's options had. *)
Record pending_invocation := mkPending {
  pi_request : pyint; pi_caller : Z; pi_callee : Z; pi_progress : val; pi_receive_progress : val }.
(** dealer.py:18-23.  [invocation_policy] is never read. *)
Record registration := mkReg { reg_id : Z; reg_procedure : string; reg_registrants : list (Z * Z) }.

(** dealer.py:27-34, plus the heap of registration objects. *)
Record dealer := mkDealer {
  d_heap : list registration;
  d_by_procedure : list (string * nat);
  d_by_session : list (Z * list (Z * nat));
  d_pending : list (Z * pending_invocation);
  d_call_ids : list ((Z * Z) * Z);
  d_sessions : list (Z * details);
  d_idgen : idgen }.
Definition dealer_init : dealer := mkDealer [] [] [] [] [] [] idgen_init.

Definition set_dheap d x := mkDealer x (d_by_procedure d) (d_by_session d) (d_pending d) (d_call_ids d) (d_sessions d) (d_idgen d).
Definition set_dproc d x := mkDealer (d_heap d) x (d_by_session d) (d_pending d) (d_call_ids d) (d_sessions d) (d_idgen d).
Definition set_dsession d x := mkDealer (d_heap d) (d_by_procedure d) x (d_pending d) (d_call_ids d) (d_sessions d) (d_idgen d).
Definition set_dpending d x := mkDealer (d_heap d) (d_by_procedure d) (d_by_session d) x (d_call_ids d) (d_sessions d) (d_idgen d).
Definition set_dcalls d x := mkDealer (d_heap d) (d_by_procedure d) (d_by_session d) (d_pending d) x (d_sessions d) (d_idgen d).
Definition set_dsessions d x := mkDealer (d_heap d) (d_by_procedure d) (d_by_session d) (d_pending d) (d_call_ids d) x (d_idgen d).
Definition set_didgen d x := mkDealer (d_heap d) (d_by_procedure d) (d_by_session d) (d_pending d) (d_call_ids d) (d_sessions d) x.

(** dealer.py:36-41 *)
Definition d_add_session (d : dealer) (det : details) : dealer * res unit :=
  let sid := pyint_Z (det_session det) in
  if zmem sid (d_by_session d) then (d, bad "cannot add session twice")
  else (set_dsessions (set_dsession d (zset sid [] (d_by_session d))) (zset sid det (d_sessions d)), Ok tt).

(** dealer.py:48-54, one iteration; [l] is the reference stored in the session's own table. *)
Definition d_remove_one (sid : Z) (d : dealer) (l : nat) : dealer * res unit :=
  match nth_error (d_heap d) l with
  | None => (d, Raise ModelGap)
  | Some reg =>
      match tget (reg_procedure reg) (d_by_procedure d) with
      | None => (d, Raise KeyError)
      | Some l' =>
          match nth_error (d_heap d) l' with
          | None => (d, Raise ModelGap)
          | Some reg' =>
              let reg'' :=
                if zmem sid (reg_registrants reg')
                then mkReg (reg_id reg') (reg_procedure reg') (zdel sid (reg_registrants reg')) else reg' in
              let d' := set_dheap d (put (d_heap d) l' reg'') in
              match reg_registrants reg'' with
              | [] =>
                  if tmem (reg_procedure reg'') (d_by_procedure d')
                  then (set_dproc d' (tdel (reg_procedure reg'') (d_by_procedure d')), Ok tt)
                  else (d', Raise KeyError)
              | _ => (d', Ok tt)
              end
          end
      end
  end.

(** dealer.py:48-54 *)
Fixpoint d_remove_all (sid : Z) (d : dealer) (ls : list (Z * nat)) : dealer * res unit :=
  match ls with
  | [] => (d, Ok tt)
  | (_, l) :: ls' =>
      match d_remove_one sid d l with
      | (d', Ok _) => d_remove_all sid d' ls'
      | r => r
      end
  end.

(** dealer.py:43-56 *)
Definition d_remove_session (d : dealer) (sid : Z) : dealer * res unit :=
  match zget sid (d_by_session d) with
  | None => (d, bad "cannot remove non-existing session")
  | Some regs =>
      match d_remove_all sid (set_dsession d (zdel sid (d_by_session d))) regs with
      | (d', Ok _) =>
          if zmem sid (d_sessions d') then (set_dsessions d' (zdel sid (d_sessions d')), Ok tt)
          else (d', Raise KeyError)
      | r => r
      end
  end.

(** dealer.py:58-59 *)
Definition has_registration (d : dealer) (procedure : string) : bool := tmem procedure (d_by_procedure d).

(** dealer.py:61-65 *)
Definition add_call (d : dealer) (call_id : pyint) (invocation_id caller callee : Z) (progress receive_progress : val) : dealer :=
  set_dcalls (set_dpending d (zset invocation_id (mkPending call_id caller callee progress receive_progress) (d_pending d)))
    (zzset (caller, pyint_Z call_id) invocation_id (d_call_ids d)).

(** error.py:36-52: [ErrorFields(type, request, uri)] with the other fields defaulted. *)
Definition plain_error (ty : Z) (request : pyint) (uri : string) : message :=
  Error (mkError (PyInt ty) request uri None None []).

(** dealer.py:68-111 *)
Definition d_call (d : dealer) (sid : Z) (m : call) : dealer * res routed :=
  match tget (ca_procedure m) (d_by_procedure d) with
  | None => (d, Ok (mkRouted (plain_error T_CALL (ca_request m) "wamp.error.no_such_procedure") sid))
  | Some l =>
      match nth_error (d_heap d) l with
      | None => (d, Raise ModelGap)
      | Some reg =>
          let callee := match reg_registrants reg with [] => 0 | (s, _) :: _ => s end in
          let receive_progress := sget_default OPTION_RECEIVE_PROGRESS (VBool false) (ca_options m) in
          let progress := sget_default OPTION_PROGRESS (VBool false) (ca_options m) in
          let fresh :=
            let (g, id) := next_id (d_idgen d) in
            (add_call (set_didgen d g) (ca_request m) id sid callee progress receive_progress, id) in
          let (d', invocation_id) :=
            if truthy progress then
              match zzget (sid, pyint_Z (ca_request m)) (d_call_ids d) with
              | Some id => (d, id)
              | None => fresh
              end
            else fresh in
          let details :=
            (if truthy receive_progress then [(VStr OPTION_RECEIVE_PROGRESS, VBool true)] else []) ++
            (if truthy progress then [(VStr OPTION_PROGRESS, VBool true)] else []) in
          (d', Ok (mkRouted
                 (Invocation (mkInvocation (PyInt invocation_id) (PyInt (reg_id reg)) (ca_args m) (ca_kwargs m) details
                    (mkBin (bp_serializer (ca_bin m)) (bp_payload (ca_bin m)) false))) callee))
      end
  end.

(** dealer.py:112-134 *)
Definition d_yield (d : dealer) (sid : Z) (m : yield) : dealer * res routed :=
  match zget (pyint_Z (yi_request m)) (d_pending d) with
  | None => (d, bad ("no pending calls for session " ++ str_of_Z sid)%string)
  | Some inv =>
      if negb (sid =? pi_callee inv) then (d, bad ("received unexpected yield from session=" ++ str_of_Z sid)%string)
      else
        let progress := sget_default OPTION_PROGRESS (VBool false) (yi_options m) in
        let result details :=
          mkRouted (Result (mkResult (pi_request inv) (yi_args m) (yi_kwargs m) details no_payload)) (pi_caller inv) in
        if truthy progress && truthy (pi_receive_progress inv) then
          (d, Ok (result [(VStr OPTION_PROGRESS, progress)]))
        else
          let d1 := set_dpending d (zdel (pyint_Z (yi_request m)) (d_pending d)) in
          let key := (pi_caller inv, pyint_Z (pi_request inv)) in
          if zzmem key (d_call_ids d1) then (set_dcalls d1 (zzdel key (d_call_ids d1)), Ok (result []))
          else (d1, Raise KeyError)
  end.

(** dealer.py:135-154 *)
Definition d_register (d : dealer) (sid : Z) (m : register) : dealer * res routed :=
  match zget sid (d_by_session d) with
  | None => (d, bad ("cannot register, session " ++ str_of_Z sid ++ " doesn't exist")%string)
  | Some own =>
      match tget (rg_procedure m) (d_by_procedure d) with
      | None =>
          let (g, id) := next_id (d_idgen d) in
          let l := length (d_heap d) in
          let d1 := set_didgen (set_dheap d (d_heap d ++ [mkReg id (rg_procedure m) [(sid, sid)]])) g in
          let d2 := set_dproc d1 (tset (rg_procedure m) l (d_by_procedure d1)) in
          (set_dsession d2 (zset sid (zset id l own) (d_by_session d2)),
           Ok (mkRouted (Registered (mkRegistered (rg_request m) (PyInt id))) sid))
      | Some _ => (d, Ok (mkRouted (plain_error T_REGISTER (rg_request m) "wamp.error.procedure_already_exists") sid))
      end
  end.

(** dealer.py:155-178 *)
Definition d_unregister (d : dealer) (sid : Z) (m : unregister) : dealer * res routed :=
  match zget sid (d_by_session d) with
  | None => (d, bad ("cannot unregister, session " ++ str_of_Z sid ++ " doesn't exist")%string)
  | Some own =>
      let id := pyint_Z (ur_registration m) in
      match zget id own with
      | None => (d, bad ("cannot unregister, session " ++ str_of_Z sid ++ " haven't registered for "
                         ++ str_of_pyint (ur_registration m))%string)
      | Some l =>
          match nth_error (d_heap d) l with
          | None => (d, Raise ModelGap)
          | Some reg =>
              if negb (zmem sid (reg_registrants reg)) then
                (d, bad ("cannot unregister, session " ++ str_of_Z sid ++ " haven't registered for "
                         ++ str_of_Z (reg_id reg))%string)
              else
                let reg' := mkReg (reg_id reg) (reg_procedure reg) (zdel sid (reg_registrants reg)) in
                let d1 := set_dheap d (put (d_heap d) l reg') in
                let reply := mkRouted (Unregistered (mkUnregistered (ur_request m))) sid in
                match reg_registrants reg' with
                | [] =>
                    let d2 := set_dsession d1 (zset sid (zdel id own) (d_by_session d1)) in
                    if tmem (reg_procedure reg') (d_by_procedure d2)
                    then (set_dproc d2 (tdel (reg_procedure reg') (d_by_procedure d2)), Ok reply)
                    else (d2, Raise KeyError)
                | _ => (d1, Ok reply)
                end
          end
      end
  end.

(** dealer.py:179-192 *)
Definition d_error (d : dealer) (m : error) : dealer * res routed :=
  if negb (pyint_Z (er_type m) =? T_INVOCATION) then
    (d, bad "dealer: only expected to receive error in response to invocation")
  else
    match zget (pyint_Z (er_request m)) (d_pending d) with
    | None => (d, bad ("dealer: no pending invocation for " ++ str_of_pyint (er_request m))%string)
    | Some inv =>
        (set_dpending d (zdel (pyint_Z (er_request m)) (d_pending d)),
         Ok (mkRouted (Error (mkError (PyInt T_CALL) (pi_request inv) (er_uri m) (er_args m) (er_kwargs m) (er_details m)))
               (pi_caller inv)))
    end.

(** dealer.py:67-194 *)
Definition d_receive_message (d : dealer) (sid : Z) (msg : message) : dealer * res routed :=
  match msg with
  | Call m => d_call d sid m
  | Yield m => d_yield d sid m
  | Register m => d_register d sid m
  | Unregister m => d_unregister d sid m
  | Error m => d_error d m
  | _ => (d, bad "message type not supported")
  end.
