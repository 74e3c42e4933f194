(** * PropsRename: C131, no session id, topic or procedure is special, and payloads are not looked at.

    [brun] and [drun] execute any list of calls on a fresh broker or dealer; [banswer] and [danswer] give what one more call returns.
    [bop_ N], [dop_ N] are the calls with other names and payloads, [bout_ N], [dout_ N] relate what they return (SpecRename.v). *)
From Coq Require Import String Ascii List ZArith Bool Lia.
From Verif Require Import PyBase Messages IdGen Joiner Broker SpecBroker BrokerRun Dealer SpecDealer DealerRun SpecRename RenameFacts.
Import ListNotations.
Local Open Scope string_scope.
Local Open Scope Z_scope.
Local Open Scope list_scope.

Theorem C131_broker : forall N, faithful N -> forall ops o,
  bout_ N (banswer (fst (brun ops)) o) (banswer (fst (brun (map (bop_ N) ops))) (bop_ N o)).
Proof. exact broker_renamed. Qed.
Print Assumptions C131_broker.
Theorem C131_has_subscription : forall N, faithful N -> forall ops t,
  has_subscription (fst (brun (map (bop_ N) ops))) (r_uri N t) = has_subscription (fst (brun ops)) t.
Proof. exact subscription_renamed. Qed.
Print Assumptions C131_has_subscription.

Theorem C131_dealer : forall N, faithful N -> forall ops o,
  dout_ N (danswer (fst (drun ops)) o) (danswer (fst (drun (map (dop_ N) ops))) (dop_ N o)).
Proof. exact dealer_renamed. Qed.
Print Assumptions C131_dealer.
Theorem C131_has_registration : forall N, faithful N -> forall ops t,
  has_registration (fst (drun (map (dop_ N) ops))) (r_uri N t) = has_registration (fst (drun ops)) t.
Proof. exact registration_renamed. Qed.
Print Assumptions C131_has_registration.

(** Sessions 1, 2 become -1, -2, every URI gets a prefix, positional arguments are removed. *)
Definition ex_N : renaming := mkRenaming (fun z => - z) (fun u => "wamp." ++ u)%string (fun _ => []) (fun d => d) (fun b => b ++ b).
Example ex_N_faithful : faithful ex_N.
Proof. split; [cbn; lia|]. intros u u' H. cbn in H. injection H as H. exact H. Qed.
Definition ex_det (z : Z) : details := mkDetails (PyInt z) "r" None None.
Definition ex_pub := mkPublish (PyInt 9) "t" (Some [VInt 5]) None [(VStr "acknowledge", VBool true)].
Definition ex_bops := [BJoin (ex_det 1); BJoin (ex_det 2); BMsg 1 (Subscribe (mkSubscribe (PyInt 1) "t" [])); BMsg 2 (Subscribe (mkSubscribe (PyInt 1) "t" []))].
Example C131_broker_instance :
  banswer (fst (brun ex_bops)) (BPub 1 ex_pub) =
    OPub (mkPublication (Some (mkEvent (PyInt 1) (PyInt 2) (Some [VInt 5]) None [])) [1; 2] (Some (mkRouted (Published (mkPublished (PyInt 9) (PyInt 2))) 1))) /\
  banswer (fst (brun (map (bop_ ex_N) ex_bops))) (bop_ ex_N (BPub 1 ex_pub)) =
    OPub (mkPublication (Some (mkEvent (PyInt 1) (PyInt 2) (Some []) None [])) [-1; -2] (Some (mkRouted (Published (mkPublished (PyInt 9) (PyInt 2))) (-1)))).
Proof. vm_compute. split; reflexivity. Qed.
Definition ex_dops := [DJoin (ex_det 1); DJoin (ex_det 2); DMsg 2 (Register (mkRegister (PyInt 1) "p" []));
  DMsg 1 (Call (mkCall (PyInt 7) "p" (Some [VInt 5]) None [] no_payload))].
Definition ex_yield := DMsg 2 (Yield (mkYield (PyInt 2) (Some [VInt 6]) None [] no_payload)).
Example C131_dealer_instance :
  danswer (fst (drun ex_dops)) ex_yield = DRouted (mkRouted (Result (mkResult (PyInt 7) (Some [VInt 6]) None [] no_payload)) 1) /\
  danswer (fst (drun (map (dop_ ex_N) ex_dops))) (dop_ ex_N ex_yield) = DRouted (mkRouted (Result (mkResult (PyInt 7) (Some []) None [] no_payload)) (-1)).
Proof. vm_compute. split; reflexivity. Qed.
