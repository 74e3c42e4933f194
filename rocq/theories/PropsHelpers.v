(** * PropsHelpers: property theorems C89-C94, C103. *)
From Coq Require Import String Ascii List ZArith Bool Lia.
From Verif Require Import PyBase Messages SpecSchema Encoding Auth AuthFacts ToyCrypto Joiner Helpers SpecHelpers HelpersFacts.
Import ListNotations.
Local Open Scope Z_scope.

(** ** C89: the validation helpers of messages/util.py. *)
Theorem C89_text : forall v m,
  Forall (fun '(f, cls) => ((exists s, v = VStr s) /\ f v m = Ok v) \/
                           ((forall s, v <> VStr s) /\ exists s, f v m = Raise (LibError cls s) /\ contains m s))
    [(validate_realm_or_raise, "InvalidRealmError"%string); (validate_uri_or_raise, "InvalidUriError"%string);
     (validate_procedure_or_raise, "InvalidUriError"%string)].
Proof.
  intros v m. apply Forall_cons; [exact (text_spec _ _ v m)|]. apply Forall_cons; [exact (text_spec _ _ v m)|].
  apply Forall_cons; [exact (text_spec _ _ v m)|]. apply Forall_nil.
Qed.
Print Assumptions C89_text.

Theorem C89_details : forall v m f,
  (validate_details_or_raise v m f = Ok v <-> exists d, v = VDict d /\ forall k x, In (k, x) d -> exists s, k = VStr s) /\
  (validate_details_or_raise v m f = Ok v \/
   exists s, validate_details_or_raise v m f = Raise (LibError "InvalidDetailsError" s) /\ contains m s).
Proof. intros v m f. exact (conj (details_ok v m f) (details_raise v m f)). Qed.
Print Assumptions C89_details.

(** The first key that is not a str is named. *)
Theorem C89_details_key : forall d1 k x d2 m f, (forall k' v', In (k', v') d1 -> exists s, k' = VStr s) -> (forall s, k <> VStr s) ->
  exists s, validate_details_or_raise (VDict (d1 ++ (k, x) :: d2)) m f = Raise (LibError "InvalidDetailsError" s) /\ contains (py_str k) s.
Proof. exact details_first_bad. Qed.
Print Assumptions C89_details_key.

(** The comment in the code says "between 1 and 2**53"; 0 and booleans are accepted. *)
Theorem C89_session_id_refuted : forall m f,
  validate_session_id_or_raise (VInt 0) m f = Ok (VInt 0) /\ validate_session_id_or_raise (VBool true) m f = Ok (VBool true).
Proof. intros m f. split; reflexivity. Qed.
Print Assumptions C89_session_id_refuted.

(** Missing: that 0 and booleans are rejected. *)
Theorem C89_session_id_partial : forall v m f,
  (validate_session_id_or_raise v m f = Ok v <-> (exists z, v = VInt z /\ 0 <= z <= 2 ^ 53) \/ exists b, v = VBool b) /\
  (validate_session_id_or_raise v m f = Ok v \/
   exists s, validate_session_id_or_raise v m f = Raise (LibError "ProtocolError" s) /\ contains m s).
Proof. intros v m f. exact (conj (session_id_values v m f) (session_id_raise v m f)). Qed.
Print Assumptions C89_session_id_partial.
Example C89_ex :
  validate_details_or_raise (VDict [(VStr "a", VInt 1)]) "Ping" None = Ok (VDict [(VStr "a", VInt 1)]) /\
  validate_details_or_raise (VDict [(VStr "a", VInt 1); (VInt 23, VNone)]) "Ping" None =
    Raise (LibError "InvalidDetailsError" "invalid type for key '23' in extra details for Ping") /\
  validate_session_id_or_raise (VInt (2 ^ 53 + 1)) "Pong" None = Raise (LibError "ProtocolError" "invalid Session ID value for Pong") /\
  validate_realm_or_raise VNone "error" = Raise (LibError "InvalidRealmError" "realm cannot be null for error").
Proof. repeat split; vm_compute; reflexivity. Qed.

(** ** C90: equality of session details. *)
Theorem C90_details_eq : forall d x, details_eq d x = true <->
  exists d', x = ODetails d' /\ pyint_Z (det_session d) = pyint_Z (det_session d') /\ det_realm d = det_realm d' /\
             det_authid d = det_authid d' /\ det_authrole d = det_authrole d'.
Proof. exact details_eq_iff. Qed.
Print Assumptions C90_details_eq.

Theorem C90_equivalence : forall d d' d'',
  details_eq d (ODetails d) = true /\
  details_eq d (ODetails d') = details_eq d' (ODetails d) /\
  (details_eq d (ODetails d') = true -> details_eq d' (ODetails d'') = true -> details_eq d (ODetails d'') = true).
Proof. exact details_eq_equiv. Qed.
Print Assumptions C90_equivalence.
Example C90_ex : let d := mkDetails (PyInt 1) "r" (Some "a"%string) None in
  details_eq d (ODetails (mkDetails (PyBool true) "r" (Some "a"%string) None)) = true /\
  details_eq d (ODetails (mkDetails (PyInt 1) "r" (Some "a"%string) (Some ""%string))) = false /\ details_eq d (OValue VNone) = false.
Proof. repeat split. Qed.

(** ** C91: the text of an ApplicationError, for any str(). *)
Theorem C91_error_text : forall str message args kwargs,
  let text := application_error_str str message args kwargs in
  (exists rest, text = (message ++ rest)%string /\
     (rest = ""%string <-> (args = None \/ args = Some []) /\ (kwargs = None \/ kwargs = Some []))) /\
  (forall l a, args = Some l -> In a l -> contains (str a) text) /\
  (forall d k v, kwargs = Some d -> In (k, v) d -> contains (str k ++ ("=" ++ str v))%string text).
Proof. exact error_text. Qed.
Print Assumptions C91_error_text.
Example C91_ex : application_error_str py_str "wamp.error.x" (Some [VStr "a"; VInt 2]) (Some [(VStr "k", VNone); (VStr "l", VBool true)])
  = "wamp.error.x: a, 2: k=None, l=True"%string /\ application_error_str py_str "wamp.error.x" None (Some []) = "wamp.error.x"%string.
Proof. split; reflexivity. Qed.

(** ** C92: time stamps. *)
Theorem C92_timestamp : forall t, String.length (utcnow t) = 24%nat /\ is_ascii (encode_str (utcnow t)) = true.
Proof. intros t. exact (conj (utcnow_length t) (utcnow_ascii t)). Qed.
Print Assumptions C92_timestamp.

(** Comparing the texts compares the times, to the millisecond; in particular different milliseconds give different texts. *)
Theorem C92_order : forall t t', valid_time t -> valid_time t' -> String.compare (utcnow t) (utcnow t') = lex (instant t) (instant t').
Proof. exact utcnow_order. Qed.
Print Assumptions C92_order.
Example C92_ex : valid_time (mkTime 2024 2 29 23 5 9 7999) /\ utcnow (mkTime 2024 2 29 23 5 9 7999) = "2024-02-29T23:05:09.007Z"%string.
Proof. split; [unfold valid_time; cbn; lia|vm_compute; reflexivity]. Qed.

(** ** C93: a generated key pair works. *)
Theorem C93_keypair : forall cr seed authid extra, length seed = 32%nat -> sget "pubkey" (extra_or_empty extra) = None ->
  let (pub, priv) := generate_cryptosign_keypair cr seed in
  (exists cl after, cryptosign_client cr authid priv extra = Ok (cl, after) /\ sget "pubkey" (cl_extra cl) = Some (VStr pub)) /\
  (ed25519_correct cr -> forall c raw, unhexlify_str c = Ok raw -> exists sig pk, sign_cryptosign_challenge cr (VStr c) seed = Ok sig /\
     unhexlify_str pub = Ok pk /\ verify_cryptosign_signature cr sig pk = Ok true).
Proof. exact keypair_works. Qed.
Print Assumptions C93_keypair.
Example C93_ex : let (pub, priv) := generate_cryptosign_keypair toy (repeat (ascii_of_nat 7) 32) in
  String.length pub = 64%nat /\ String.length priv = 64%nat /\ match cryptosign_client toy "joe" priv None with Ok _ => True | Raise _ => False end.
Proof. vm_compute. auto. Qed.

(** ** C94: marshalling and the caller's dicts. *)
Theorem C94_shared_dict_refuted : exists h o1 o2,
  bp_serializer (bin_of (snd o2)) = None /\ fst (marshal_object h o1) <> h /\
  snd (marshal_object (fst (marshal_object h o1)) o2) <> snd (marshal_object h o2).
Proof. exact shared_dict_leaks. Qed.
Print Assumptions C94_shared_dict_refuted.

(** Marshalling the object is marshalling the message, if the dict is the one the message was built with. *)
Theorem C94_object : forall h a m, built_with m (dict_at h a) -> snd (marshal_object h (a, m)) = marshal m.
Proof. exact marshal_object_same. Qed.
Print Assumptions C94_object.
Example C94_object_ex :
  let m := Error (mkError (PyInt 48) (PyInt 1) "e" None None [(VStr "k", VInt 1)]) in
  built_with m (dict_at [[]; [(VStr "k", VInt 1)]] 1) /\ snd (marshal_object [[]; [(VStr "k", VInt 1)]] (1%nat, m)) = [VInt 8; VInt 48; VInt 1; VDict [(VStr "k", VInt 1)]; VStr "e"].
Proof. split; reflexivity. Qed.

(** Missing: messages that share a dict and differ in payload serializer. *)
Theorem C94_marshal_partial : forall h os, agreeing os ->
  snd (marshal_objects h os) = map (fun o => snd (marshal_object h o)) os.
Proof. exact marshal_objects_pure. Qed.
Print Assumptions C94_marshal_partial.

Theorem C94_dicts_partial : forall h os a,
  (forall k, k <> "x_payload_serializer"%string -> sget k (dict_at (fst (marshal_objects h os)) a) = sget k (dict_at h a)) /\
  ((forall o, In o os -> fst o = a -> bp_serializer (bin_of (snd o)) = None) -> dict_at (fst (marshal_objects h os)) a = dict_at h a).
Proof. intros h os a. exact (conj (marshal_objects_other h os a) (marshal_objects_untouched h os a)). Qed.
Print Assumptions C94_dicts_partial.
Example C94_ex :
  let call n := Call (mkCall (PyInt n) "p" None None [] (mkBin (Some 2) (Some []) true)) in
  agreeing [(0%nat, call 1); (0%nat, call 2); (1%nat, Publish (mkPublish (PyInt 3) "t" None None []))] /\
  marshal_objects [[(VStr "k", VNone)]; []] [(0%nat, call 1); (0%nat, call 2)] =
    ([[(VStr "k", VNone); (VStr "x_payload_serializer", VInt 2)]; []],
     [[VInt 48; VInt 1; VDict [(VStr "k", VNone); (VStr "x_payload_serializer", VInt 2)]; VStr "p"];
      [VInt 48; VInt 2; VDict [(VStr "k", VNone); (VStr "x_payload_serializer", VInt 2)]; VStr "p"]]).
Proof.
  split; [|reflexivity]. intros o o' [<-|[<-|[<-|[]]]] [<-|[<-|[<-|[]]]]; cbn; intros E; try reflexivity; discriminate E.
Qed.

(** ** C103: [sanity_check] and the [parse] class methods on any object. *)
Theorem C103_sanity_check : forall v mn mx id name,
  (sanity_check_object v mn mx id name = Ok tt <->
   exists h r, v = VList (h :: r) /\ (mn <= length (h :: r) <= mx)%nat /\ py_eq_int h id = true) /\
  (forall e, sanity_check_object v mn mx id name = Raise e ->
   (exists s, e = ValueError [s]) \/ (e = IndexError /\ v = VList [] /\ mn = 0%nat)).
Proof. exact (fun v mn mx id name => conj (sanity_iff v mn mx id name) (fun e => sanity_raises v mn mx id name e)). Qed.
Print Assumptions C103_sanity_check.

Theorem C103_parse : forall c v,
  ((exists m, parse_object (parse_of c) (sc_name (schema_of c)) v = Ok m) <-> exists l, v = VList l /\ conforms c l) /\
  (forall e, parse_object (parse_of c) (sc_name (schema_of c)) v = Raise e -> exists msgs, e = ValueError msgs /\ msgs <> []).
Proof. exact (fun c v => conj (parse_object_iff c v) (fun e => parse_object_raises c v e)). Qed.
Print Assumptions C103_parse.

(** What is not a list is named by its type. *)
Theorem C103_not_a_list : forall c v, (forall l, v <> VList l) -> exists s,
  parse_object (parse_of c) (sc_name (schema_of c)) v = Raise (ValueError [s]) /\
  contains (type_name v) s /\ contains (sc_name (schema_of c)) s.
Proof. exact parse_object_other. Qed.
Print Assumptions C103_not_a_list.
Example C103_ex :
  sanity_check_object (VList []) 0 3 1 "X" = Raise IndexError /\
  sanity_check_object (VStr "wamp message") 1 1 1 "hello" =
    Raise (ValueError ["invalid message type str for hello, type should be a list"%string]) /\
  sanity_check_object (VList [VFloat 4607182418800017408]) 1 1 1 "hello" = Ok tt /\
  (exists m, parse_object (parse_of CGoodbye) "GOODBYE" (VList [VInt 6; VDict []; VStr "bye"]) = Ok m) /\
  (forall l, VBytes [] <> VList l) /\
  parse_object (parse_of CGoodbye) "GOODBYE" (VBytes []) =
    Raise (ValueError ["invalid message type bytes for GOODBYE, type should be a list"%string]).
Proof. repeat split; try discriminate; try (vm_compute; reflexivity). eexists. vm_compute. reflexivity. Qed.
