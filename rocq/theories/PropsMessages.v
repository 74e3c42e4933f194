(** * PropsMessages: property theorems C01-C09 and C14 (message level). *)
From Coq Require Import String Ascii List ZArith Bool Lia Sorted.
From Verif Require Import PyBase Messages Validate Parse SpecSchema SchemaFacts RoundTripFacts.
Import ListNotations.
Local Open Scope string_scope.
Local Open Scope Z_scope.
Local Open Scope list_scope.

(** C01: round trip of every message class, up to the normalisations of [normalise]. *)
Theorem C01_round_trip : forall m, wf_message m -> to_message (VList (marshal m)) = Ok (normalise m).
Proof. exact round_trip. Qed.
Print Assumptions C01_round_trip.

Example C01_nonvacuous :
  wf_message (Welcome (mkWelcome (PyInt (2 ^ 53)) [(VStr "broker", VDict [(VInt 3, VList [VFloat 5; VNone])])]
                         (Some "bob") None (Some "ticket") []))
  /\ wf_message (Call (mkCall (PyInt 1) "p" None (Some [(VStr "k", VBytes ["a"%char])]) []
                         (mkBin (Some 1) (Some ["x"%char]) true))).
Proof.
  cbn. unfold wf_id, wf_roles. split; [split|].
  - eexists; split; [reflexivity|lia].
  - split; [discriminate|]. intros k v [H|[]]. injection H as <- <-. eexists. split; [reflexivity|]. cbn. tauto.
  - eexists; split; [reflexivity|lia].
Qed.

(** C02: [parse] accepts exactly the lists that conform to the schema. *)
Theorem C02_parse_accepts_schema : forall c l, (exists m, parse_of c l = Ok m) <-> conforms c l.
Proof. exact parse_conforms_iff. Qed.
Print Assumptions C02_parse_accepts_schema.

Example C02_both_sides :
  conforms CPublished [VInt 17; VInt 3; VInt (2 ^ 53)] /\ ~ conforms CPublished [VInt 17; VInt 0; VInt 3].
Proof.
  split.
  - apply C02_parse_accepts_schema. eexists. vm_compute. reflexivity.
  - rewrite <- C02_parse_accepts_schema. intros [m H]. vm_compute in H. discriminate.
Qed.

(** C03: the attributes of a parsed message are the elements of the list. *)
Theorem C03_parsed_fields : forall c l m, parse_of c l = Ok m ->
  class_of m = c /\ attrs m = expected_attrs c l /\ payload_of m = no_payload.
Proof. exact parse_reads. Qed.
Print Assumptions C03_parsed_fields.

Example C03_nonvacuous : exists m,
  parse_of CEvent [VInt 36; VInt 7; VInt 8; VDict []; VList [VStr "a"]] = Ok m /\
  attrs m = [("subscription_id", VInt 7); ("publication_id", VInt 8); ("details", VDict []);
             ("args", VList [VStr "a"]); ("kwargs", VNone)].
Proof. eexists. split; vm_compute; reflexivity. Qed.

(** C04: which exceptions escape [to_message]. *)
Theorem C04_exception_discipline : forall v,
  (to_message v = Raise IndexError <-> v = VList []) /\
  ((exists s, to_message v = Raise (TypeError s)) <->
     (forall l, v <> VList l) \/ exists h r, v = VList (h :: r) /\ ~ is_int h) /\
  (forall e, to_message v = Raise e -> e = IndexError \/ (exists s, e = TypeError s) \/
     (exists msgs, e = ValueError msgs /\ msgs <> [])).
Proof. exact exception_discipline. Qed.
Print Assumptions C04_exception_discipline.

Example C04_cases : to_message (VList []) = Raise IndexError
  /\ (exists s, to_message (VStr "x") = Raise (TypeError s))
  /\ (exists s, to_message (VList [VInt 99]) = Raise (ValueError s)).
Proof. repeat split; try (eexists; vm_compute; reflexivity). Qed.

(** C05: all violations are reported, in ascending order of position, and only violations. *)
Theorem C05_all_violations : forall c l, length_ok c l -> head_ok c l ->
  (violations c l = [] <-> conforms c l) /\
  StronglySorted le (map violation_index (violations c l)) /\
  (violations c l <> [] ->
     parse_of c l = Raise (ValueError (map (render (sc_name (schema_of c))) (violations c l)))).
Proof.
  exact (fun c l HL HH => conj (violations_conforms c l HL HH)
           (conj (violations_sorted c l) (parse_violations c l HL HH))).
Qed.
Print Assumptions C05_all_violations.

Example C05_nonvacuous :
  let l := [VInt 1; VInt 5; VDict [(VStr "authid", VInt 3); (VStr "roles", VDict [(VStr "boss", VNone)])]] in
  length_ok CHello l /\ head_ok CHello l /\
  parse_of CHello l = Raise (ValueError
    ["HELLO: value at index 1 must be of type 'string' but was int";
     "HELLO: value at index 2 for key 'authid' must be of type 'string' but was int";
     "HELLO: value at index 2 for roles key must be in ['callee', 'caller', 'publisher', 'subscriber', 'dealer', 'broker'] but was boss"]).
Proof.
  cbn zeta. split; [vm_compute; split; repeat constructor|]. split.
  - eexists. eexists. split; [reflexivity|reflexivity].
  - vm_compute. reflexivity.
Qed.

(** C06: re-marshalling a parsed message gives the list back (type code compares equal), except for HELLO,
    WELCOME and ABORT; and every parsed message but ABORT is stable under marshal and parse. *)
Theorem C06_remarshal : forall v m, to_message v = Ok m ->
  (filtered_class (class_of m) = false ->
     exists h r, v = VList (h :: r) /\ marshal m = VInt (message_TYPE m) :: r
                 /\ py_eq_int h (message_TYPE m) = true) /\
  (class_of m <> CAbort -> to_message (VList (marshal m)) = Ok m).
Proof. exact (fun v m H => conj (remarshal v m H) (parse_stable v m H)). Qed.
Print Assumptions C06_remarshal.

Example C06_nonvacuous : exists m,
  to_message (VList [VInt 68; VInt 7; VInt 8; VDict [(VStr "progress", VBool true)]; VList []; VDict []]) = Ok m
  /\ filtered_class (class_of m) = false.
Proof. eexists. split; vm_compute; reflexivity. Qed.

(** C07: dispatch by type code. *)
Theorem C07_dispatch :
  (forall v m, to_message v = Ok m -> exists h r, v = VList (h :: r) /\ py_eq_int h (message_TYPE m) = true) /\
  (forall c h r, is_int h -> py_eq_int h (sc_code (schema_of c)) = true ->
     to_message (VList (h :: r)) = parse_of c (h :: r)) /\
  (forall c1 c2, sc_code (schema_of c1) = sc_code (schema_of c2) -> c1 = c2) /\
  (forall h r, is_int h -> (forall c, py_eq_int h (sc_code (schema_of c)) = false) ->
     to_message (VList (h :: r)) = Raise (ValueError ["unknown message type"])).
Proof.
  exact (conj dispatch (conj (fun c h r => to_message_is_parse h r c) (conj codes_distinct dispatch_unknown))).
Qed.
Print Assumptions C07_dispatch.

Example C07_unknown : is_int (VInt 7) /\ forall c, py_eq_int (VInt 7) (sc_code (schema_of c)) = false.
Proof. split; [left; eauto|]. intros []; reflexivity. Qed.

(** C08 fails: ABORT loses its args and kwargs on the wire. *)
Theorem C08_abort_args_refuted : exists m m',
  wf_message (Abort m) /\ to_message (VList (marshal (Abort m))) = Ok (Abort m') /\
  ab_args m <> ab_args m' /\ ab_kwargs m <> ab_kwargs m'.
Proof. exact abort_args_lost. Qed.
Print Assumptions C08_abort_args_refuted.

(** What does hold: details and reason always survive, and an ABORT without arguments survives entirely.
    Missing for C08: args/kwargs are dropped by [marshal]. *)
Theorem C08_abort_partial : forall m,
  to_message (VList (marshal (Abort m))) = Ok (Abort (mkAbort (ab_details m) (ab_reason m) None None)).
Proof. exact (fun m => round_trip (Abort m) I). Qed.
Print Assumptions C08_abort_partial.

(** C09 fails: [true] is accepted as an id. *)
Theorem C09_bool_id_refuted : exists m,
  to_message (VList [VInt 17; VBool true; VBool true]) = Ok m /\ attrs m = [("request_id", VBool true); ("publication_id", VBool true)].
Proof. exact (ex_intro _ (Published (mkPublished (PyBool true) (PyBool true))) (conj eq_refl eq_refl)). Qed.
Print Assumptions C09_bool_id_refuted.

(** What does hold: an accepted id position holds an int in 1..2**53 or the bool [True], nothing else. *)
Theorem C09_ids_partial : forall c l m i a, parse_of c l = Ok m ->
  nth_error (sc_req (schema_of c)) i = Some (a, KId) ->
  exists v, nth_error l (S i) = Some v /\ ((exists z, v = VInt z /\ 1 <= z <= 2 ^ 53) \/ v = VBool true).
Proof. exact accepted_ids. Qed.
Print Assumptions C09_ids_partial.

Example C09_nonvacuous : exists m,
  parse_of CSubscribed [VInt 33; VInt 4; VInt 9] = Ok m
  /\ nth_error (sc_req (schema_of CSubscribed)) 1 = Some ("subscription_id", KId).
Proof. eexists. split; vm_compute; reflexivity. Qed.

(** C14 fails: the payload bytes are never put on the wire; two CALLs with different payloads marshal equally. *)
Theorem C14_binary_payload_refuted : exists m1 m2,
  wf_message m1 /\ wf_message m2 /\ carries_payload m1 = true /\ marshal m1 = marshal m2 /\
  bp_payload (payload_of m1) <> bp_payload (payload_of m2) /\
  (forall m', to_message (VList (marshal m1)) = Ok m' -> bp_payload (payload_of m') = None).
Proof. exact payload_lost. Qed.
Print Assumptions C14_binary_payload_refuted.

(** What does hold: the payload serializer id reaches the peer.  Missing for C14: the payload itself. *)
Theorem C14_serializer_id_partial : forall m s, wf_message m -> carries_payload m = true ->
  bp_serializer (payload_of m) = Some s ->
  exists m', to_message (VList (marshal m)) = Ok m' /\ class_of m' = class_of m
             /\ sget "x_payload_serializer" (options_of m') = Some (VInt s)
             /\ payload_of m' = no_payload.
Proof. exact payload_serializer_kept. Qed.
Print Assumptions C14_serializer_id_partial.

Example C14_nonvacuous :
  let m := Yield (mkYield (PyInt 3) None None [(VStr "progress", VBool true)] (mkBin (Some 2) (Some []) true)) in
  wf_message m /\ carries_payload m = true /\ bp_serializer (payload_of m) = Some 2.
Proof. split; [exists 3; split; [reflexivity|lia]|split; reflexivity]. Qed.
