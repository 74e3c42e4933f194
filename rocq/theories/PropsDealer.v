(** * PropsDealer: property theorems C55-C68, C75 and C76 (Dealer).

    [drun ops] executes any list of API calls on a fresh dealer and returns the dealer and the history (newest
    first); [danswer d o] is what one more call [o] returns.  [d_ids_issued h] counts the ids the history used up. *)
From Coq Require Import String Ascii List ZArith Bool Lia.
From Verif Require Import PyBase Messages IdGen Joiner SpecHistory Broker Dealer SpecDealer DealerRun DealerFacts DealerTheorems.
Import ListNotations.
Local Open Scope string_scope.
Local Open Scope Z_scope.
Local Open Scope list_scope.

(** How [holder] is to be read: the last REGISTERED for [p], neither unregistered nor left since. *)
Theorem C55_holder_meaning : forall p s i h, holder p h = Some (s, i) <->
  exists newer e older, h = newer ++ e :: older /\ registers e = Some (s, p, i) /\ forall x, In x newer ->
    ~ ((exists s' i', registers x = Some (s', p, i')) \/ unregisters x = Some (s, i) \/ d_leaves s x = true).
Proof. exact holder_meaning. Qed.
Print Assumptions C55_holder_meaning.

(** C55 *)
Theorem C55_register : forall ops s m, let (d, h) := drun ops in d_ids_issued h <= 2 ^ 53 -> d_member s h = true ->
  (holder (rg_procedure m) h = None ->
     exists i, danswer d (DMsg s (Register m)) = DRouted (mkRouted (Registered (mkRegistered (rg_request m) (PyInt i))) s)) /\
  (holder (rg_procedure m) h <> None ->
     danswer d (DMsg s (Register m)) =
     DRouted (mkRouted (Error (mkError (PyInt 64) (rg_request m) "wamp.error.procedure_already_exists" None None [])) s)).
Proof. exact register_ok. Qed.
Print Assumptions C55_register.

Theorem C55_has_registration : forall ops p, let (d, h) := drun ops in d_ids_issued h <= 2 ^ 53 ->
  (has_registration d p = true <-> holder p h <> None).
Proof. exact has_registration_iff. Qed.
Print Assumptions C55_has_registration.

Definition ex_join n := DJoin (mkDetails (PyInt n) "realm" None None).
Definition ex_reg s r p := DMsg s (Register (mkRegister (PyInt r) p [])).
Definition ex_unreg s r i := DMsg s (Unregister (mkUnregister (PyInt r) (PyInt i))).
Definition ex_call_ r p o := mkCall (PyInt r) p (Some [VInt r]) None o no_payload.
Definition ex_call s r p o := DMsg s (Call (ex_call_ r p o)).
Definition ex_yield_ i o := mkYield (PyInt i) (Some [VStr "y"]) None o no_payload.
Definition ex_yield s i o := DMsg s (Yield (ex_yield_ i o)).
Definition ex_error_ i := mkError (PyInt 68) (PyInt i) "boom" (Some [VInt 1]) (Some [(VStr "k", VNone)]) [(VStr "d", VInt 2)].
Definition ex_error s i := DMsg s (Error (ex_error_ i)).
Definition P : dict := [(VStr "progress", VBool true)].
Definition RP : dict := [(VStr "receive_progress", VBool true)].
(* 1: a by 10; 2: b by 20; 3: c by 10, unregistered; 4: c by 20; then 10 leaves and rejoins *)
Definition ex_ops := [ex_join 10; ex_join 20; ex_join 30; ex_reg 10 1 "a"; ex_reg 20 1 "b"; ex_reg 10 2 "c"; ex_reg 20 2 "a";
                      ex_unreg 10 3 3; ex_reg 20 3 "c"; DLeave 10; ex_join 10].

Example C55_case : let (d, h) := drun ex_ops in
  d_ids_issued h = 4 /\ holder "a" h = None /\ holder "b" h = Some (20, 2) /\ holder "c" h = Some (20, 4) /\
  d_member 10 h = true /\ has_registration d "a" = false /\ has_registration d "c" = true /\
  danswer d (ex_reg 10 9 "a") = DRouted (mkRouted (Registered (mkRegistered (PyInt 9) (PyInt 5))) 10) /\
  danswer d (ex_reg 10 9 "b") =
    DRouted (mkRouted (Error (mkError (PyInt 64) (PyInt 9) "wamp.error.procedure_already_exists" None None [])) 10).
Proof. vm_compute. repeat split. Qed.

(** C56 *)
Theorem C56_call : forall ops s m, let (d, h) := drun ops in d_ids_issued h <= 2 ^ 53 ->
  match holder (ca_procedure m) h with
  | None => danswer d (DMsg s (Call m)) =
      DRouted (mkRouted (Error (mkError (PyInt 48) (ca_request m) "wamp.error.no_such_procedure" None None [])) s)
  | Some (c, g) => exists iv, danswer d (DMsg s (Call m)) = DRouted (mkRouted (Invocation iv) c) /\
      iv_registration iv = PyInt g /\ iv_args iv = ca_args m /\ iv_kwargs iv = ca_kwargs m /\
      sget "progress" (iv_details iv) = (if wants "progress" (ca_options m) then Some (VBool true) else None) /\
      sget "receive_progress" (iv_details iv) = (if wants "receive_progress" (ca_options m) then Some (VBool true) else None)
  end.
Proof. exact call_routed. Qed.
Print Assumptions C56_call.

Theorem C56_never_raises : forall ops s m, let (d, h) := drun ops in exists r, danswer d (DMsg s (Call m)) = DRouted r.
Proof. exact call_never_raises. Qed.
Print Assumptions C56_never_raises.

Example C56_case : let (d, h) := drun ex_ops in
  danswer d (ex_call 30 7 "c" (P ++ RP)) =
    DRouted (mkRouted (Invocation (mkInvocation (PyInt 5) (PyInt 4) (Some [VInt 7]) None (RP ++ P) no_payload)) 20) /\
  danswer d (ex_call 30 7 "a" []) =
    DRouted (mkRouted (Error (mkError (PyInt 48) (PyInt 7) "wamp.error.no_such_procedure" None None [])) 30).
Proof. vm_compute. repeat split. Qed.

(** How [unanswered] is to be read: the last fresh INVOCATION with that id, neither finally answered nor failed since. *)
Theorem C57_unanswered_meaning : forall i w h, unanswered i h = Some w <->
  exists newer e older s m c, h = newer ++ e :: older /\ invokes e = Some (s, m, i, c) /\ fresh s m older = true /\
    w = mkWaiting s (ca_request m) c (wants "receive_progress" (ca_options m)) /\
    forall n1 x n2, newer = n1 ++ x :: n2 ->
      ~ ((exists s' m' c', invokes x = Some (s', m', i, c') /\ fresh s' m' (n2 ++ e :: older) = true) \/
         (exists c' r, results x = Some (i, true, c', r)) \/ fails x = Some i \/ crashes x = Some i).
Proof. exact unanswered_meaning. Qed.
Print Assumptions C57_unanswered_meaning.

(** C57: a RESULT only for a YIELD of the callee of a pending invocation, and then to the right caller. *)
Theorem C57_only_if : forall ops s m r, let (d, h) := drun ops in danswer d (DMsg s (Yield m)) = DRouted r ->
  exists w res, unanswered (pyint_Z (yi_request m)) h = Some w /\ wt_callee w = s /\
    r = mkRouted (Result res) (wt_caller w) /\ re_request res = wt_request w /\
    re_args res = yi_args m /\ re_kwargs res = yi_kwargs m.
Proof. exact yield_only_from_callee. Qed.
Print Assumptions C57_only_if.

(** C57: the converse fails.  (A progressive call with a final chunk is enough.) *)
Theorem C57_refuted : exists ops s m w, let (d, h) := drun ops in
  unanswered (pyint_Z (yi_request m)) h = Some w /\ wt_callee w = s /\ d_member s h = true /\ d_member (wt_caller w) h = true /\
  danswer d (DMsg s (Yield m)) = DExn KeyError.
Proof.
  exists (ex_ops ++ [ex_call 30 7 "b" P; ex_call 30 7 "b" []; ex_yield 20 6 []]), 20, (ex_yield_ 5 []), (mkWaiting 30 (PyInt 7) 20 false).
  vm_compute. repeat split.
Qed.
Print Assumptions C57_refuted.

(** C57: it holds as long as the call is still on record, i.e. no RESULT for the same caller and request id was
    returned since the last INVOCATION for them. *)
Theorem C57_if_partial : forall ops s m w, let (d, h) := drun ops in
  unanswered (pyint_Z (yi_request m)) h = Some w -> wt_callee w = s ->
  open_call (wt_caller w) (pyint_Z (wt_request w)) h <> None ->
  exists res, danswer d (DMsg s (Yield m)) = DRouted (mkRouted (Result res) (wt_caller w)) /\ re_request res = wt_request w /\
    re_args res = yi_args m /\ re_kwargs res = yi_kwargs m.
Proof. exact yield_from_callee. Qed.
Print Assumptions C57_if_partial.

(** ... which is the case if the caller does not use the request id twice. *)
Theorem C57_on_record : forall s r i newer e older,
  (exists m c, invokes e = Some (s, m, i, c) /\ pyint_Z (ca_request m) = r) ->
  (forall x, In x newer -> reuses s r x = false /\ returns s r x = false) ->
  open_call s r (newer ++ e :: older) = Some i.
Proof. exact open_call_kept. Qed.
Print Assumptions C57_on_record.

Definition ex_calls := ex_ops ++ [ex_call 30 7 "b" RP; ex_call 10 7 "c" []; ex_call 30 8 "b" []; ex_yield 20 6 []].
Example C57_case : let (d, h) := drun ex_calls in
  unanswered 5 h = Some (mkWaiting 30 (PyInt 7) 20 true) /\ unanswered 6 h = None /\
  unanswered 7 h = Some (mkWaiting 30 (PyInt 8) 20 false) /\ open_call 30 8 h = Some 7 /\ open_call 10 7 h = None /\
  danswer d (ex_yield 20 7 []) =
    DRouted (mkRouted (Result (mkResult (PyInt 8) (Some [VStr "y"]) None [] no_payload)) 30) /\
  (exists e, danswer d (ex_yield 10 7 []) = DExn (ValueError [e])) /\
  (exists e, danswer d (ex_yield 20 6 []) = DExn (ValueError [e])).
Proof. vm_compute. repeat split; eexists; reflexivity. Qed.

(** C58 *)
Theorem C58_one_final_answer : forall ops newer e older i,
  snd (drun ops) = newer ++ e :: older -> d_ids_issued (newer ++ e :: older) <= 2 ^ 53 ->
  (fails e = Some i \/ exists c r, results e = Some (i, true, c, r)) ->
  forall x, In x newer -> ~ (fails x = Some i \/ exists f c r, results x = Some (i, f, c, r)).
Proof. exact one_final_answer. Qed.
Print Assumptions C58_one_final_answer.

Example C58_case :
  let h := snd (drun (ex_calls ++ [ex_yield 20 5 P; ex_error 20 5; ex_yield 20 5 []; ex_error 20 5; ex_yield 20 7 []; ex_yield 20 7 []])) in
  map fails (firstn 6 h) = [None; None; None; None; Some 5; None] /\
  map results (firstn 7 h) = [None; Some (7, true, 30, 8); None; None; None; Some (5, false, 30, 7); Some (6, true, 10, 7)].
Proof. vm_compute. repeat split. Qed.

(** C59: any number of progressive results, and they leave the dealer as it was. *)
Theorem C59_progress : forall ops s ms w i, let (d, h) := drun ops in
  unanswered i h = Some w -> wt_callee w = s -> wt_progressive w = true ->
  (forall m, In m ms -> pyint_Z (yi_request m) = i /\ wants "progress" (yi_options m) = true) ->
  fst (drun (ops ++ map (fun m => DMsg s (Yield m)) ms)) = d /\
  Forall2 (fun m e => fst e = DMsg s (Yield m) /\ exists v, sget "progress" (yi_options m) = Some v /\
             snd e = DRouted (mkRouted (Result (mkResult (wt_request w) (yi_args m) (yi_kwargs m) [(VStr "progress", v)] no_payload)) (wt_caller w)))
    (rev ms) (firstn (length ms) (snd (drun (ops ++ map (fun m => DMsg s (Yield m)) ms)))).
Proof. exact progress_yields. Qed.
Print Assumptions C59_progress.

(** C59: the final YIELD is not always answered with a RESULT: same reason as C57. *)
Theorem C59_final_refuted : exists ops s m w, let (d, h) := drun ops in
  unanswered (pyint_Z (yi_request m)) h = Some w /\ wt_callee w = s /\ d_member s h = true /\ d_member (wt_caller w) h = true /\
  wants "progress" (yi_options m) && wt_progressive w = false /\
  danswer d (DMsg s (Yield m)) = DExn KeyError.
Proof.
  exists (ex_ops ++ [ex_call 30 7 "b" P; ex_call 30 7 "b" []; ex_yield 20 6 []]), 20, (ex_yield_ 5 []), (mkWaiting 30 (PyInt 7) 20 false).
  vm_compute. repeat split.
Qed.
Print Assumptions C59_final_refuted.

(** ... but it is as long as the call is still on record (C57_on_record). *)
Theorem C59_final_partial : forall ops s m w, let (d, h) := drun ops in
  unanswered (pyint_Z (yi_request m)) h = Some w -> wt_callee w = s ->
  wants "progress" (yi_options m) && wt_progressive w = false ->
  open_call (wt_caller w) (pyint_Z (wt_request w)) h <> None ->
  danswer d (DMsg s (Yield m)) =
    DRouted (mkRouted (Result (mkResult (wt_request w) (yi_args m) (yi_kwargs m) [] no_payload)) (wt_caller w)) /\
  let d' := fst (drun (ops ++ [DMsg s (Yield m)])) in
  (forall x m', pyint_Z (yi_request m') = pyint_Z (yi_request m) -> exists e, danswer d' (DMsg x (Yield m')) = DExn (ValueError [e])) /\
  (forall x m', pyint_Z (er_request m') = pyint_Z (yi_request m) -> exists e, danswer d' (DMsg x (Error m')) = DExn (ValueError [e])).
Proof. exact final_yield. Qed.
Print Assumptions C59_final_partial.

Example C59_case : let (d, h) := drun (ex_calls ++ [ex_yield 20 5 P; ex_yield 20 5 P]) in
  unanswered 5 h = Some (mkWaiting 30 (PyInt 7) 20 true) /\ open_call 30 7 h = Some 5 /\
  danswer d (ex_yield 20 5 P) = DRouted (mkRouted (Result (mkResult (PyInt 7) (Some [VStr "y"]) None P no_payload)) 30) /\
  danswer d (ex_yield 20 5 []) = DRouted (mkRouted (Result (mkResult (PyInt 7) (Some [VStr "y"]) None [] no_payload)) 30) /\
  danswer d (ex_yield 20 7 P) = DRouted (mkRouted (Result (mkResult (PyInt 8) (Some [VStr "y"]) None [] no_payload)) 30).
Proof. vm_compute. repeat split. Qed.

(** C60 *)
Theorem C60_unregister : forall ops s m, let (d, h) := drun ops in d_ids_issued h <= 2 ^ 53 ->
  ((exists p, holder p h = Some (s, pyint_Z (ur_registration m))) ->
     danswer d (DMsg s (Unregister m)) = DRouted (mkRouted (Unregistered (mkUnregistered (ur_request m))) s)) /\
  ((forall p, holder p h <> Some (s, pyint_Z (ur_registration m))) ->
     exists e, danswer d (DMsg s (Unregister m)) = DExn (ValueError [e])).
Proof. exact unregister_ok. Qed.
Print Assumptions C60_unregister.

Theorem C60_one_procedure_per_id : forall ops p1 p2 s1 s2 i, let (d, h) := drun ops in d_ids_issued h <= 2 ^ 53 ->
  holder p1 h = Some (s1, i) -> holder p2 h = Some (s2, i) -> p1 = p2.
Proof. exact holder_unique_id. Qed.
Print Assumptions C60_one_procedure_per_id.

Theorem C60_after_unregister : forall ops s m, let (d, h) := drun ops in d_ids_issued h <= 2 ^ 53 ->
  danswer d (DMsg s (Unregister m)) = DRouted (mkRouted (Unregistered (mkUnregistered (ur_request m))) s) ->
  let d' := fst (drun (ops ++ [DMsg s (Unregister m)])) in
  (forall p, has_registration d' p = true <-> has_registration d p = true /\ holder p h <> Some (s, pyint_Z (ur_registration m))) /\
  (forall x c, holder (ca_procedure c) h <> Some (s, pyint_Z (ur_registration m)) ->
     danswer d' (DMsg x (Call c)) = danswer d (DMsg x (Call c))).
Proof. exact after_unregister. Qed.
Print Assumptions C60_after_unregister.

Theorem C60_after_removal : forall ops s, let (d, h) := drun ops in d_ids_issued h <= 2 ^ 53 -> danswer d (DLeave s) = DDone ->
  let d' := fst (drun (ops ++ [DLeave s])) in
  (forall p, has_registration d' p = true <-> has_registration d p = true /\ forall i, holder p h <> Some (s, i)) /\
  (forall x c, (forall i, holder (ca_procedure c) h <> Some (s, i)) -> danswer d' (DMsg x (Call c)) = danswer d (DMsg x (Call c))).
Proof. exact after_removal. Qed.
Print Assumptions C60_after_removal.

Example C60_case : let (d, h) := drun (ex_ops ++ [ex_reg 10 8 "e"]) in
  danswer d (ex_unreg 20 9 2) = DRouted (mkRouted (Unregistered (mkUnregistered (PyInt 9))) 20) /\
  (exists e, danswer d (ex_unreg 10 9 2) = DExn (ValueError [e])) /\
  (exists e, danswer d (ex_unreg 10 9 3) = DExn (ValueError [e])) /\
  (let d' := fst (drun (ex_ops ++ [ex_reg 10 8 "e"; ex_unreg 20 9 2])) in
   map (has_registration d') ["a"; "b"; "c"; "e"] = [false; false; true; true]) /\
  (let d' := fst (drun (ex_ops ++ [ex_reg 10 8 "e"; DLeave 20])) in
   map (has_registration d') ["a"; "b"; "c"; "e"] = [false; false; false; true]) /\
  danswer d (DLeave 20) = DDone.
Proof. vm_compute. repeat split; eexists; reflexivity. Qed.

(** C61 *)
Theorem C61_membership : forall ops, let (d, h) := drun ops in
  (forall det, (d_member (pyint_Z (det_session det)) h = false -> danswer d (DJoin det) = DDone) /\
               (d_member (pyint_Z (det_session det)) h = true -> exists e, danswer d (DJoin det) = DExn (ValueError [e]))) /\
  (forall s, (d_member s h = true -> danswer d (DLeave s) = DDone) /\
             (d_member s h = false -> exists e, danswer d (DLeave s) = DExn (ValueError [e]))) /\
  (forall s m, d_member s h = false -> exists e, danswer d (DMsg s (Register m)) = DExn (ValueError [e])) /\
  (forall s m, d_member s h = true -> exists r, danswer d (DMsg s (Register m)) = DRouted r) /\
  (forall s m, d_member s h = false -> exists e, danswer d (DMsg s (Unregister m)) = DExn (ValueError [e])).
Proof. exact d_membership. Qed.
Print Assumptions C61_membership.

Theorem C61_other_messages : forall ops s m, let (d, h) := drun ops in
  match m with Call _ | Yield _ | Register _ | Unregister _ | Error _ => False | _ => True end ->
  danswer d (DMsg s m) = DExn (ValueError ["message type not supported"]).
Proof. exact d_other_messages. Qed.
Print Assumptions C61_other_messages.

Example C61_case : let (d, h) := drun (ex_ops ++ [DLeave 20]) in
  map (fun s => d_member s h) [10; 20; 30; 40] = [true; false; true; false] /\
  danswer d (ex_join 20) = DDone /\ danswer d (DLeave 30) = DDone /\
  (exists e, danswer d (ex_join 10) = DExn (ValueError [e])) /\ (exists e, danswer d (DLeave 20) = DExn (ValueError [e])) /\
  (exists e, danswer d (ex_reg 20 1 "z") = DExn (ValueError [e])) /\ (exists e, danswer d (ex_unreg 20 1 2) = DExn (ValueError [e])).
Proof. vm_compute. repeat split; eexists; reflexivity. Qed.

(** C62 *)
Theorem C62_error : forall ops s m, let (d, h) := drun ops in
  match unanswered (pyint_Z (er_request m)) h with
  | Some w => pyint_Z (er_type m) = 68 -> danswer d (DMsg s (Error m)) =
      DRouted (mkRouted (Error (mkError (PyInt 48) (wt_request w) (er_uri m) (er_args m) (er_kwargs m) (er_details m))) (wt_caller w))
  | None => exists e, danswer d (DMsg s (Error m)) = DExn (ValueError [e])
  end /\
  (pyint_Z (er_type m) <> 68 -> exists e, danswer d (DMsg s (Error m)) = DExn (ValueError [e])).
Proof. exact error_answer. Qed.
Print Assumptions C62_error.

Example C62_case : let (d, h) := drun ex_calls in
  unanswered 7 h = Some (mkWaiting 30 (PyInt 8) 20 false) /\
  danswer d (ex_error 20 7) = DRouted (mkRouted (Error (mkError (PyInt 48) (PyInt 8) "boom" (Some [VInt 1])
    (Some [(VStr "k", VNone)]) [(VStr "d", VInt 2)])) 30) /\
  (exists e, danswer d (ex_error 20 6) = DExn (ValueError [e])) /\
  (exists e, danswer d (DMsg 20 (Error (mkError (PyInt 48) (PyInt 7) "boom" None None []))) = DExn (ValueError [e])).
Proof. vm_compute. repeat split; eexists; reflexivity. Qed.

(** C63: anybody, member or not, can fail any invocation. *)
Theorem C63_refuted : exists ops s m w r, let (d, h) := drun ops in
  unanswered (pyint_Z (er_request m)) h = Some w /\ wt_callee w <> s /\ d_member s h = true /\
  danswer d (DMsg s (Error m)) = DRouted r.
Proof.
  exists ex_calls, 10, (ex_error_ 5), (mkWaiting 30 (PyInt 7) 20 true). eexists. vm_compute. repeat split. discriminate.
Qed.
Print Assumptions C63_refuted.

Theorem C63_stranger_refuted : forall ops s m w, let (d, h) := drun ops in
  unanswered (pyint_Z (er_request m)) h = Some w -> pyint_Z (er_type m) = 68 ->
  exists r, danswer d (DMsg s (Error m)) = DRouted r.
Proof.
  intros ops s m w. pose proof (error_answer ops s m) as H. destruct (drun ops) as [d h]. intros U E. rewrite U in H.
  eexists. exact (proj1 H E).
Qed.
Print Assumptions C63_stranger_refuted.

(** C64: the final chunk gets another id, and then one of the two invocations cannot be answered. *)
Theorem C64_refuted : exists ops s m1 m2 i1 i2 c, let (d, h) := drun ops in
  ca_request m1 = ca_request m2 /\ wants "progress" (ca_options m1) = true /\ wants "progress" (ca_options m2) = false /\
  map invokes (firstn 2 h) = [Some (s, m2, i2, c); Some (s, m1, i1, c)] /\ i1 <> i2 /\
  danswer (fst (drun (ops ++ [ex_yield c i1 []]))) (ex_yield c i2 []) = DExn KeyError /\
  danswer (fst (drun (ops ++ [ex_yield c i2 []]))) (ex_yield c i1 []) = DExn KeyError.
Proof.
  exists (ex_ops ++ [ex_call 30 7 "b" P; ex_call 30 7 "b" []]), 30, (ex_call_ 7 "b" P), (ex_call_ 7 "b" []), 5, 6, 20.
  vm_compute. repeat split. discriminate.
Qed.
Print Assumptions C64_refuted.

(** C64: after a re-registration chunks go to the new callee, who cannot answer. *)
Theorem C64_callee_refuted : exists ops s m i c1 c2, let (d, h) := drun ops in
  wants "progress" (ca_options m) = true /\ In (Some (s, m, i, c1)) (map invokes h) /\ In (Some (s, m, i, c2)) (map invokes h) /\ c1 <> c2 /\
  d_member c2 h = true /\ exists e, danswer d (ex_yield c2 i []) = DExn (ValueError [e]).
Proof.
  exists (ex_ops ++ [ex_call 30 7 "b" P; DLeave 20; ex_reg 10 1 "b"; ex_call 30 7 "b" P]), 30, (ex_call_ 7 "b" P), 5, 20, 10.
  vm_compute. repeat split; auto 12; try discriminate. eexists. reflexivity.
Qed.
Print Assumptions C64_callee_refuted.

(** C64: a further chunk with truthy progress gets the same invocation id, goes to whoever holds the procedure now,
    and changes nothing in the dealer. *)
Theorem C64_chunk_partial : forall ops s m i, let (d, h) := drun ops in d_ids_issued h <= 2 ^ 53 ->
  open_call s (pyint_Z (ca_request m)) h = Some i -> wants "progress" (ca_options m) = true ->
  forall c g, holder (ca_procedure m) h = Some (c, g) ->
  exists iv, danswer d (DMsg s (Call m)) = DRouted (mkRouted (Invocation iv) c) /\ iv_request iv = PyInt i /\ iv_registration iv = PyInt g /\
    (forall o, danswer (fst (drun (ops ++ [DMsg s (Call m)]))) o = danswer d o).
Proof. exact chunk. Qed.
Print Assumptions C64_chunk_partial.

Example C64_case : let (d, h) := drun (ex_ops ++ [ex_call 30 7 "b" P; ex_call 10 7 "b" P; ex_call 30 7 "b" P]) in
  open_call 30 7 h = Some 5 /\ open_call 10 7 h = Some 6 /\ d_ids_issued h = 6 /\
  danswer d (ex_call 30 7 "b" P) =
    DRouted (mkRouted (Invocation (mkInvocation (PyInt 5) (PyInt 2) (Some [VInt 7]) None P no_payload)) 20).
Proof. vm_compute. repeat split. Qed.

(** C65 *)
Theorem C65_refuted : exists ops o, let (d, h) := drun ops in danswer d o = DExn KeyError.
Proof. exists (ex_ops ++ [ex_call 30 7 "b" P; ex_call 30 7 "b" []; ex_yield 20 6 []]), (ex_yield 20 5 []). vm_compute. reflexivity. Qed.
Print Assumptions C65_refuted.

(** C65: exactly where a KeyError escapes; nothing else but ValueErrors does. *)
Theorem C65_exceptions_partial : forall ops o e, let (d, h) := drun ops in danswer d o = DExn e ->
  (exists a, e = ValueError [a]) \/
  (e = KeyError /\ exists s m w, o = DMsg s (Yield m) /\ unanswered (pyint_Z (yi_request m)) h = Some w /\ wt_callee w = s /\
     wants "progress" (yi_options m) && wt_progressive w = false /\
     open_call (wt_caller w) (pyint_Z (wt_request w)) h = None).
Proof. exact d_exceptions. Qed.
Print Assumptions C65_exceptions_partial.

(** C66: an invocation stays pending after its callee has gone, and a RESULT is addressed to a caller that has gone. *)
Theorem C66_pending_refuted : exists ops i w, let (d, h) := drun ops in
  unanswered i h = Some w /\ d_member (wt_caller w) h = true /\ d_member (wt_callee w) h = false /\
  hd_error h = Some (DLeave (wt_callee w), DDone).
Proof. exists (ex_calls ++ [DLeave 20]), 7, (mkWaiting 30 (PyInt 8) 20 false). vm_compute. repeat split. Qed.
Print Assumptions C66_pending_refuted.

Theorem C66_recipient_refuted : exists ops o r, let (d, h) := drun ops in
  danswer d o = DRouted r /\ d_member (rt_recipient r) h = false /\ hd_error h = Some (DLeave (rt_recipient r), DDone).
Proof. exists (ex_calls ++ [DLeave 30]), (ex_yield 20 7 []). eexists. vm_compute. repeat split. Qed.
Print Assumptions C66_recipient_refuted.

(** C66: but INVOCATION, REGISTERED and UNREGISTERED only go to members, the rest to the sender or the caller. *)
Theorem C66_recipients_partial : forall ops s m r, let (d, h) := drun ops in d_ids_issued h <= 2 ^ 53 -> danswer d (DMsg s m) = DRouted r ->
  match rt_message r with
  | Invocation _ | Registered _ | Unregistered _ => d_member (rt_recipient r) h = true
  | Result _ => exists i w, unanswered i h = Some w /\ rt_recipient r = wt_caller w
  | Error e => rt_recipient r = s \/ exists i w, unanswered i h = Some w /\ rt_recipient r = wt_caller w
  | _ => False
  end.
Proof. exact d_recipients. Qed.
Print Assumptions C66_recipients_partial.

(** C67: after an ERROR a progressive CALL with the same request id is attached to the dead invocation. *)
Theorem C67_refuted : exists ops s m i c, let (d, h) := drun ops in
  (exists x e', hd_error h = Some (DMsg x (Error e'), DRouted (mkRouted (Error (mkError (PyInt 48) (ca_request m) "boom" (Some [VInt 1])
    (Some [(VStr "k", VNone)]) [(VStr "d", VInt 2)])) s))) /\
  unanswered i h = None /\
  invokes (DMsg s (Call m), danswer d (DMsg s (Call m))) = Some (s, m, i, c) /\
  exists e, danswer (fst (drun (ops ++ [DMsg s (Call m)]))) (ex_yield c i []) = DExn (ValueError [e]).
Proof.
  exists (ex_ops ++ [ex_call 30 7 "b" []; ex_error 20 5]), 30, (ex_call_ 7 "b" P), 5, 20. vm_compute.
  repeat split; try (eexists; reflexivity). eexists _, _. reflexivity.
Qed.
Print Assumptions C67_refuted.

(** C67: a final RESULT does release the call. *)
Theorem C67_result_partial : forall ops s m c req, let (d, h) := drun ops in
  results (DMsg s (Yield m), danswer d (DMsg s (Yield m))) = Some (pyint_Z (yi_request m), true, c, req) ->
  let h' := snd (drun (ops ++ [DMsg s (Yield m)])) in
  unanswered (pyint_Z (yi_request m)) h' = None /\ open_call c req h' = None /\
  forall m', pyint_Z (ca_request m') = req -> fresh c m' h' = true.
Proof. exact result_releases. Qed.
Print Assumptions C67_result_partial.

Example C67_case : let (d, h) := drun ex_calls in
  results (ex_yield 20 7 [], danswer d (ex_yield 20 7 [])) = Some (7, true, 30, 8).
Proof. vm_compute. reflexivity. Qed.

(** C68 *)
Theorem C68_register : forall ops s m i, let (d, h) := drun ops in d_ids_issued h < 2 ^ 53 ->
  registers (DMsg s (Register m), danswer d (DMsg s (Register m))) = Some (s, rg_procedure m, i) -> ~ In i (ids_seen h).
Proof. exact register_id_fresh. Qed.
Print Assumptions C68_register.

Theorem C68_invocation : forall ops s m iv c, let (d, h) := drun ops in d_ids_issued h < 2 ^ 53 ->
  danswer d (DMsg s (Call m)) = DRouted (mkRouted (Invocation iv) c) ->
  if fresh s m h then ~ In (pyint_Z (iv_request iv)) (ids_seen h)
  else open_call s (pyint_Z (ca_request m)) h = Some (pyint_Z (iv_request iv)).
Proof. exact invocation_id_fresh. Qed.
Print Assumptions C68_invocation.

Theorem C68_all_distinct : forall ops, d_ids_issued (snd (drun ops)) <= 2 ^ 53 -> NoDup (new_ids (snd (drun ops))).
Proof. exact new_ids_distinct. Qed.
Print Assumptions C68_all_distinct.

Example C68_case : let h := snd (drun (ex_calls ++ [ex_call 30 9 "b" P; ex_call 30 9 "b" P; ex_reg 10 1 "z"])) in
  ids_seen h = [9; 8; 8; 7; 6; 5; 4; 3; 2; 1] /\ new_ids h = [9; 8; 7; 6; 5; 4; 3; 2; 1] /\ d_ids_issued h = 9.
Proof. vm_compute. repeat split. Qed.

(** C75: the dealer hands over a payload, but as one that is not binary (INVOCATION) or not at all (RESULT). *)
Theorem C75_refuted :
  (exists ops s m iv c b, let (d, h) := drun ops in
     ca_bin m = mkBin (Some 1) (Some b) true /\ danswer d (DMsg s (Call m)) = DRouted (mkRouted (Invocation iv) c) /\
     iv_bin iv = mkBin (Some 1) (Some b) false) /\
  (exists ops s m res c b, let (d, h) := drun ops in
     yi_bin m = mkBin (Some 1) (Some b) true /\ danswer d (DMsg s (Yield m)) = DRouted (mkRouted (Result res) c) /\
     re_bin res = mkBin None None false).
Proof.
  split.
  - exists ex_ops, 30, (mkCall (PyInt 7) "b" None None [] (mkBin (Some 1) (Some ["x"%char]) true)). eexists _, _, _. vm_compute. repeat split.
  - exists ex_calls, 20, (mkYield (PyInt 7) None None [] (mkBin (Some 1) (Some ["x"%char]) true)). eexists _, _, _. vm_compute. repeat split.
Qed.
Print Assumptions C75_refuted.

(** C75: args, kwargs and the serializer id are handed on. *)
Theorem C75_call_partial : forall ops s m iv c, let (d, h) := drun ops in
  danswer d (DMsg s (Call m)) = DRouted (mkRouted (Invocation iv) c) ->
  iv_args iv = ca_args m /\ iv_kwargs iv = ca_kwargs m /\ bp_serializer (iv_bin iv) = bp_serializer (ca_bin m) /\
  bp_payload (iv_bin iv) = bp_payload (ca_bin m) /\ bp_binary (iv_bin iv) = false.
Proof. exact call_payload. Qed.
Print Assumptions C75_call_partial.

(** C76: the dealer serves calls from sessions it does not know. *)
Theorem C76_refuted : exists ops s m iv c, let (d, h) := drun ops in
  d_member s h = false /\ danswer d (DMsg s (Call m)) = DRouted (mkRouted (Invocation iv) c).
Proof. exists ex_ops, 99, (ex_call_ 7 "b" []). eexists _, _. vm_compute. repeat split. Qed.
Print Assumptions C76_refuted.

(** C76: what does hold: YIELDs only come from the session the invocation went to, and REGISTER and UNREGISTER only
    from members (C57_only_if, C61_membership). *)
Theorem C76_yield_partial : forall ops s m r, let (d, h) := drun ops in danswer d (DMsg s (Yield m)) = DRouted r ->
  exists e caller c, In e h /\ invokes e = Some (caller, c, pyint_Z (yi_request m), s).
Proof. exact yield_from_invoked. Qed.
Print Assumptions C76_yield_partial.
