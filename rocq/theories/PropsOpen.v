(** * PropsOpen: C129, objects outside the data of messages; C81 for CBOR. *)
From Coq Require Import String Ascii List ZArith Bool Lia.
From Verif Require Import PyBase Encoding Messages Parse Serializer SpecSchema RoundTripFacts CodecBase SpecCodec MsgPack Cbor Json Float CodecOpen Codecs CodecsFacts
  SpecFormat SpecCbor OpenFacts.
Import ListNotations.
Local Open Scope Z_scope.
Local Open Scope list_scope.

(** [U]: what the libraries do with semantic tags, containers as keys, and objects of other classes; anything. *)

(** ** C81 for CBOR: an error comes from the message, from the format, or from a tag or key that cbor2 could not make an object of. *)
Theorem C81_cbor : forall U b e, deserialize (cbor_open U) b = Raise e -> parse_error e \/ (exists m, e = CodecError m) \/
  (exists t x r, tag_dec U t x r = Raise e) \/ exists k, hashable k = false /\ key_dec U k = Raise e.
Proof. exact cbor_open_error. Qed.
Print Assumptions C81_cbor.

(** ** C129 *)
(** Data without such objects is written the same. *)
Theorem C129_writes : forall U v, (cbor_value v -> dumps (cbor_open U) v = dumps cbor v) /\
  (msgpack_value v -> dumps (msgpack_open U) v = dumps msgpack v) /\ (json_value v -> dumps (json_open U python_floats) v = dumps python_json v).
Proof. exact open_dumps. Qed.
Print Assumptions C129_writes.
(** And read the same, however it is written. *)
Theorem C129_reads : forall U v b r, SpecCbor.item true v b -> loads (cbor_open U) (b ++ r) = Ok v.
Proof. exact open_reads. Qed.
Print Assumptions C129_reads.
Theorem C129_message : forall U m, wf_message m ->
  (cbor_value (VList (marshal m)) -> exists b, serialize (cbor_open U) m = Ok b /\ deserialize (cbor_open U) b = Ok (normalise m)) /\
  (msgpack_value (VList (marshal m)) -> exists b, serialize (msgpack_open U) m = Ok b /\ deserialize (msgpack_open U) b = Ok (normalise m)) /\
  (json_value (VList (marshal m)) ->
   exists b, serialize (json_open U python_floats) m = Ok b /\ deserialize (json_open U python_floats) b = Ok (normalise m)).
Proof. exact open_round_trip. Qed.
Print Assumptions C129_message.
(** An object in the arguments changes nothing about the rest of the message: the type code and the ids in front survive. *)
Theorem C129_head : forall c zs l b v, is_python_codec c -> zs <> [] -> Forall (fun z => 0 <= z <= 2 ^ 53) zs -> (length zs + length l <= 10)%nat ->
  dumps c (VList (map VInt zs ++ l)) = Ok b -> loads c b = Ok v -> exists l', v = VList (map VInt zs ++ l').
Proof. exact open_head. Qed.
Print Assumptions C129_head.

(** Tag 1 (a time) makes a datetime, but not of strings; tuples of lists; datetimes are written as a time again. *)
Definition octets (l : list Z) : bytes := map octet l.
Definition ex_times : unknown := mkUnknown
  (fun n t => if String.eqb n "datetime" then Ok (octets [193; 24; 42]) else Raise (TypeError "cannot serialize"%string))
  (fun t x r => if t =? 1 then match x with VInt _ => Ok (VOther "datetime" true) | _ => Raise (CodecError "error decoding datetime"%string) end else Ok (VOther "CBORTag" true))
  (fun k => Ok (VOther "tuple" true))
  (fun n t => Raise (TypeError "is not JSON serializable"%string)) (fun n t => Raise (TypeError "keys must be str"%string)).
(** [36, 1, 2, {}, [1(42)]] *)
Definition ex_event : bytes := octets [133; 24; 36; 1; 2; 160; 129; 193; 24; 42].
Example C129_instance :
  let m := Event (mkEvent (PyInt 1) (PyInt 2) (Some [VOther "datetime" true]) None []) in
  deserialize (cbor_open ex_times) ex_event = Ok m /\ serialize (cbor_open ex_times) m = Ok ex_event /\
  deserialize cbor ex_event = Raise ModelGap /\ is_python_codec (cbor_open ex_times) /\
  loads (cbor_open ex_times) (octets [161; 129; 1; 2]) = Ok (VDict [(VOther "tuple" true, VInt 2)]).
Proof. cbv zeta. do 3 (split; [vm_compute; reflexivity|]). split; [|vm_compute; reflexivity]. right. right. right. exists ex_times. auto. Qed.
Example C81_cbor_instance : deserialize (cbor_open ex_times) (octets [131; 24; 36; 1; 193; 96]) = Raise (CodecError "error decoding datetime").
Proof. vm_compute. reflexivity. Qed.
