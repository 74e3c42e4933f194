(** * PropsOrigin: property theorem C99 (every message a client receives goes back to what clients sent). *)
From Coq Require Import String Ascii List ZArith Bool Lia.
From Verif Require Import PyBase Messages IdGen Serializer Codecs MsgPack Cbor Joiner Session Broker Dealer SpecDealer Network SpecNetwork.
From Verif Require Import SpecSchema SpecCodec PropsNetwork NetworkFacts NetworkInv NetworkOrigin ByteNetwork SpecByteNetwork ByteNetworkFacts PropsByteNetwork.
Import ListNotations.
Local Open Scope string_scope.
Local Open Scope Z_scope.
Local Open Scope list_scope.

(** C99 *)
Theorem C99_origin : forall before s m r,
  snd (nstep (fst (nrun before)) (ADeliver s)) = Delivered m r -> comes_from (sends before) s m.
Proof. exact delivered_from. Qed.
Print Assumptions C99_origin.

Theorem C99_origin_bytes : forall before s d r, Forall usable before ->
  snd (bytes_step (fst (bytes_run before)) (WDeliver s)) = WDelivered d r ->
  exists m, d = Ok m /\ comes_from (bytes_sends before) s m.
Proof. exact delivered_from_bytes. Qed.
Print Assumptions C99_origin_bytes.

(** The RESULT that the JSON caller gets from the CBOR callee in C95_case, and the EVENT. *)
Example C99_case :
  (exists r, snd (bytes_step (fst (bytes_run (firstn 18 y_acts))) (WDeliver 10)) =
     WDelivered (Ok (Result (mkResult (PyInt 1) (Some [VDict KW]) None [] no_bin))) r) /\
  (exists r, snd (bytes_step (fst (bytes_run (firstn 11 y_acts))) (WDeliver 10)) =
     WDelivered (Ok (Event (mkEvent (PyInt 1) (PyInt 2) (Some []) (Some KW) []))) r).
Proof. split; eexists; vm_compute; reflexivity. Qed.
