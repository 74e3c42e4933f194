(** * PropsSpelling: C125, how a peer spells a message makes no difference. *)
From Coq Require Import String Ascii List ZArith Bool Lia.
From Verif Require Import PyBase Encoding Messages Parse Serializer MsgPack Cbor Json JsonBytes Float Codecs SpecSchema RoundTripFacts Auth Session Joiner Acceptor Broker Dealer Network
  ByteNetwork HostileNetwork SpecFormat SpecMsgPack MsgPackFormat SpecSpelling SpellingFacts.
Import ListNotations.
Local Open Scope Z_scope.

Theorem C125_message : forall c m b, wf_message m -> spelling c (VList (marshal m)) b -> deserialize c b = Ok (normalise m).
Proof. exact spelling_message. Qed.
Print Assumptions C125_message.
Theorem C125_receive : forall c v b b', spelling c v b -> spelling c v b' ->
  (forall s, receive c s b = receive c s b') /\
  (forall authn j, joiner_receive c authn j b = joiner_receive c authn j b') /\
  (forall cr e a, acceptor_receive cr c e a b = acceptor_receive cr c e a b') /\
  decode_payload c b = decode_payload c b'.
Proof. exact receive_spelling. Qed.
Print Assumptions C125_receive.
(** In a network of any clients: what every step shows, what is sent to every client, the sessions and the router are the same. *)
Theorem C125_network : forall codec_of acts acts', respelled codec_of acts acts' ->
  let r := hrun acts in let r' := hrun acts' in
  map snd (snd r) = map snd (snd r') /\ visible (fst r) = visible (fst r') /\ bn_broker (fst r) = bn_broker (fst r') /\ bn_dealer (fst r) = bn_dealer (fst r').
Proof. exact network_spelling. Qed.
Print Assumptions C125_network.

(** SUBSCRIBE to "t" by a client that spends as few octets as possible, and by one that does not. *)
Definition det (s : Z) : details := mkDetails (PyInt s) "r" None None.
Example C125_instance :
  let v := VList (marshal (Subscribe (mkSubscribe (PyInt 1) "t" []))) in
  let b := map octet [148; 32; 1; 128; 161; 116] in
  let b' := map octet [220; 0; 4; 204; 32; 211; 0; 0; 0; 0; 0; 0; 0; 1; 222; 0; 0; 218; 0; 1; 116] in
  let acts x := [HAct (WJoin (det 1) msgpack); HPut 1 x; HAct (WRoute 1); HAct (WDeliver 1)] in
  spelling msgpack v b /\ spelling msgpack v b' /\ respelled (fun _ => msgpack) (acts b) (acts b') /\
  snd (hd (HAct (WLeave 0), WQuiet) (snd (hrun (acts b)))) <> WQuiet.
Proof.
  cbv zeta.
  assert (A : spelling msgpack (VList (marshal (Subscribe (mkSubscribe (PyInt 1) "t" [])))) (map octet [148; 32; 1; 128; 161; 116]))
    by (constructor; apply msgpack_exact; vm_compute; reflexivity).
  assert (B : spelling msgpack (VList (marshal (Subscribe (mkSubscribe (PyInt 1) "t" [])))) (map octet [220; 0; 4; 204; 32; 211; 0; 0; 0; 0; 0; 0; 0; 1; 222; 0; 0; 218; 0; 1; 116]))
    by (constructor; apply msgpack_exact; vm_compute; reflexivity).
  split; [exact A|]. split; [exact B|]. split; [|vm_compute; discriminate].
  apply (respelled_join (fun _ => msgpack) (det 1)). apply (respelled_put (fun _ => msgpack) 1 _ _ _ _ _ A B).
  repeat (apply respelled_same; [discriminate|]). constructor.
Qed.
