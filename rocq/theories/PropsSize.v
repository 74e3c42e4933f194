(** * PropsSize: C128, the router sends no more and nothing much longer than it was sent. *)
From Coq Require Import String Ascii List ZArith Bool Lia.
From Verif Require Import PyBase Encoding Messages IdGen Parse Serializer MsgPack Cbor Codecs Session Joiner Broker Dealer Network ByteNetwork HostileNetwork SpecCodec SpecFormat SpecWeight SizeFacts SizeNetwork.
Import ListNotations.
Local Open Scope string_scope.
Local Open Scope Z_scope.
Local Open Scope list_scope.

(** The three serializers write at most 28 octets for each unit of weight. *)
Theorem C128_value : forall v b, (dumps cbor v = Ok b -> count b <= 9 * weight v) /\ (dumps msgpack v = Ok b -> count b <= 9 * weight v) /\
  (dumps python_json v = Ok b -> count b <= 28 * weight v).
Proof. exact (fun v b => conj (cbor_size v b) (conj (msgpack_size v b) (json_size v b))). Qed.
Print Assumptions C128_value.
(** [M]: a bound on all that clients send, be they WAMPSessions or not. *)
Theorem C128_length : forall M acts,
  (forall det c, In (HAct (WJoin det c)) acts -> is_closed_codec c) ->
  (forall s b, In (HPut s b) acts -> count b <= M) ->
  (forall s m c b, In (HAct (WSend s m)) acts -> is_closed_codec c -> serialize c m = Ok b -> count b <= M) ->
  forall s cl b, zget s (bn_clients (fst (hrun acts))) = Some cl -> In b (bc_down cl) ->
  count b <= 28 * (2 * M + 40) /\ (bc_codec cl = cbor \/ bc_codec cl = msgpack -> count b <= 9 * (2 * M + 40)).
Proof. exact length_bound. Qed.
Print Assumptions C128_length.
(** One message makes the router send at most two to its sender, and one to anybody else. *)
Theorem C128_number : forall acts s s' cl, zget s' (bn_clients (fst (hrun acts))) = Some cl -> exists cl' new,
  zget s' (bn_clients (fst (hstep (fst (hrun acts)) (HAct (WRoute s))))) = Some cl' /\ bc_down cl' = bc_down cl ++ new /\
  Z.of_nat (length new) <= if s' =? s then 2 else 1.
Proof. exact number_bound. Qed.
Print Assumptions C128_number.

(** A client in CBOR and one in JSON; the first publishes to both. *)
Definition ex_det (z : Z) : details := mkDetails (PyInt z) "r" None None.
Definition ex_sent : list haction :=
  [HAct (WJoin (ex_det 1) cbor); HAct (WJoin (ex_det 2) python_json);
   HAct (WSend 1 (Subscribe (mkSubscribe (PyInt 1) "t" []))); HPut 2 (encode_str "[32, 1, {}, ""t""]"); HAct (WRoute 1); HAct (WRoute 2);
   HAct (WSend 1 (Publish (mkPublish (PyInt 2) "t" (Some [VFloat 9227875636482146304]) None [(VStr "acknowledge", VBool true)])))].
Example C128_instance :
  let n := fst (hrun ex_sent) in let n' := fst (hstep n (HAct (WRoute 1))) in
  map (fun e => map (@length ascii) (bc_down (snd e))) (bn_clients n) = [[5%nat]; [10%nat]] /\
  map (fun e => map (@length ascii) (bc_down (snd e))) (bn_clients n') = [[5; 4; 16]; [10; 42]]%nat.
Proof. cbv zeta. split; vm_compute; reflexivity. Qed.
Example C128_bounded :
  (forall det c, In (HAct (WJoin det c)) ex_sent -> is_closed_codec c) /\ (forall s b, In (HPut s b) ex_sent -> count b <= 63) /\
  (forall s m c b, In (HAct (WSend s m)) ex_sent -> is_closed_codec c -> serialize c m = Ok b -> count b <= 63).
Proof.
  split; [|split].
  - intros det c [E|[E|[E|[E|[E|[E|[E|[]]]]]]]]; try discriminate E; injection E as _ <-; unfold is_closed_codec; auto.
  - intros s b [E|[E|[E|[E|[E|[E|[E|[]]]]]]]]; try discriminate E. injection E as _ <-. vm_compute. discriminate.
  - intros s m c b K C H. enough (F : match serialize c m with Ok b => count b <= 63 | Raise _ => True end) by (rewrite H in F; exact F). clear H.
    destruct K as [E|[E|[E|[E|[E|[E|[E|[]]]]]]]]; try discriminate E; injection E as _ <-; destruct C as [->|[->| ->]]; vm_compute; discriminate.
Qed.
