(** * PropsRouter: C132, broker and dealer do what a one-page reference router does (SpecRouter.v), and remember nothing else. *)
From Coq Require Import String Ascii List ZArith Bool Lia.
From Verif Require Import PyBase Messages IdGen Joiner Broker SpecBroker BrokerRun Dealer SpecDealer DealerRun SpecRouter RouterFacts.
Import ListNotations.
Local Open Scope string_scope.
Local Open Scope Z_scope.
Local Open Scope list_scope.

Theorem C132_broker : forall ops o, Z.of_nat (length ops) < 2 ^ 53 -> b_agrees (snd (rb_step (rb_run ops) o)) (banswer (fst (brun ops)) o).
Proof. exact broker_reference. Qed.
Print Assumptions C132_broker.
Theorem C132_has_subscription : forall ops t, Z.of_nat (length ops) <= 2 ^ 53 -> has_subscription (fst (brun ops)) t = tmem t (rb_topics (rb_run ops)).
Proof. exact broker_reference_topics. Qed.
Print Assumptions C132_has_subscription.
Theorem C132_dealer : forall ops o, Z.of_nat (length ops) < 2 ^ 53 -> d_agrees (snd (rd_step (rd_run ops) o)) (danswer (fst (drun ops)) o).
Proof. exact dealer_reference. Qed.
Print Assumptions C132_dealer.
Theorem C132_has_registration : forall ops p, Z.of_nat (length ops) <= 2 ^ 53 -> has_registration (fst (drun ops)) p = tmem p (rd_procedures (rd_run ops)).
Proof. exact dealer_reference_procedures. Qed.
Print Assumptions C132_has_registration.

(** Nothing else is remembered: whatever came before, and whatever comes after. *)
Theorem C132_broker_forgets : forall ops1 ops2 rest o, rb_run ops1 = rb_run ops2 ->
  Z.of_nat (length (ops1 ++ rest)) < 2 ^ 53 -> Z.of_nat (length (ops2 ++ rest)) < 2 ^ 53 ->
  same_b (banswer (fst (brun (ops1 ++ rest))) o) (banswer (fst (brun (ops2 ++ rest))) o).
Proof. exact broker_forgets. Qed.
Print Assumptions C132_broker_forgets.
Theorem C132_dealer_forgets : forall ops1 ops2 rest o, rd_run ops1 = rd_run ops2 ->
  Z.of_nat (length (ops1 ++ rest)) < 2 ^ 53 -> Z.of_nat (length (ops2 ++ rest)) < 2 ^ 53 ->
  same_d (danswer (fst (drun (ops1 ++ rest))) o) (danswer (fst (drun (ops2 ++ rest))) o).
Proof. exact dealer_forgets. Qed.
Print Assumptions C132_dealer_forgets.
(** Once everyone has left, a broker can be told from a new one only by the ids it gives next. *)
Theorem C132_broker_as_new : forall ops1 ops2 rest o,
  (forall s, member s (snd (brun ops1)) = false) -> (forall s, member s (snd (brun ops2)) = false) ->
  ids_issued (snd (brun ops1)) = ids_issued (snd (brun ops2)) ->
  Z.of_nat (length (ops1 ++ rest)) < 2 ^ 53 -> Z.of_nat (length (ops2 ++ rest)) < 2 ^ 53 ->
  same_b (banswer (fst (brun (ops1 ++ rest))) o) (banswer (fst (brun (ops2 ++ rest))) o).
Proof. exact broker_as_new. Qed.
Print Assumptions C132_broker_as_new.

Definition ex_det (z : Z) : details := mkDetails (PyInt z) "r" None None.
Definition ex_sub := Subscribe (mkSubscribe (PyInt 1) "t" []).
Definition ex_pub := mkPublish (PyInt 9) "t" (Some [VInt 5]) None [(VStr "acknowledge", VBool true)].
Definition ex_bops := [BJoin (ex_det 1); BJoin (ex_det 2); BMsg 1 ex_sub; BMsg 2 ex_sub; BMsg 3 ex_sub; BLeave 1].
Example C132_broker_run :
  rb_run ex_bops = mkRB [2] [("t", (1, [2]))] 1 /\
  snd (rb_step (rb_run ex_bops) (BPub 2 ex_pub)) =
    Some (OPub (mkPublication (Some (mkEvent (PyInt 1) (PyInt 2) (Some [VInt 5]) None [])) [2] (Some (mkRouted (Published (mkPublished (PyInt 9) (PyInt 2))) 2)))) /\
  snd (rb_step (rb_run ex_bops) (BMsg 1 ex_sub)) = None.
Proof. repeat split. Qed.
Example C132_broker_code :
  banswer (fst (brun ex_bops)) (BPub 2 ex_pub) =
    OPub (mkPublication (Some (mkEvent (PyInt 1) (PyInt 2) (Some [VInt 5]) None [])) [2] (Some (mkRouted (Published (mkPublished (PyInt 9) (PyInt 2))) 2))) /\
  exists text, banswer (fst (brun ex_bops)) (BMsg 1 ex_sub) = OExn (ValueError [text]).
Proof. split; [reflexivity|]. eexists. reflexivity. Qed.
(** Two different pasts, both over, with one id used in each. *)
Definition ex_past1 := [BJoin (ex_det 1); BMsg 1 ex_sub; BLeave 1].
Definition ex_past2 := [BJoin (ex_det 7); BJoin (ex_det 8); BPub 8 ex_pub; BLeave 8; BMsg 7 ex_sub; BLeave 7; BLeave 7].
Example C132_past1 : rb_run ex_past1 = mkRB [] [] 1 /\ forall s, member s (snd (brun ex_past1)) = false.
Proof. split; [reflexivity|]. intros s. destruct (Z.eq_dec s 1) as [->|N]; [reflexivity|]. apply Z.eqb_neq in N.
  remember (snd (brun ex_past1)) as h eqn:E. vm_compute in E. subst h. cbn -[Z.eqb]. rewrite ?(Z.eqb_sym 1 s), N. reflexivity. Qed.
Example C132_past2 : rb_run ex_past2 = mkRB [] [] 2 /\ rb_run (BJoin (ex_det 4) :: BPub 4 ex_pub :: BLeave 4 :: ex_past1) = mkRB [] [] 2.
Proof. split; reflexivity. Qed.

Definition ex_call (r : Z) (more : bool) := Call (mkCall (PyInt r) "p" (Some [VInt 5]) None [(VStr "progress", VBool more)] no_payload).
Definition ex_dops := [DJoin (ex_det 1); DJoin (ex_det 2); DMsg 1 (Register (mkRegister (PyInt 3) "p" [])); DMsg 2 (ex_call 4 true)].
Example C132_dealer_run :
  rd_run ex_dops = mkRD [1; 2] [("p", (1, 1))] [(2, mkWaiting 2 (PyInt 4) 1 false)] [((2, 4), 2)] 2 /\
  snd (rd_step (rd_run ex_dops) (DMsg 2 (ex_call 4 true))) =
    Some (DRouted (mkRouted (Invocation (mkInvocation (PyInt 2) (PyInt 1) (Some [VInt 5]) None [(VStr "progress", VBool true)] (mkBin (bp_serializer no_payload) (bp_payload no_payload) false))) 1)) /\
  snd (rd_step (rd_run ex_dops) (DMsg 2 (ex_call 4 false))) =
    Some (DRouted (mkRouted (Invocation (mkInvocation (PyInt 3) (PyInt 1) (Some [VInt 5]) None [] (mkBin (bp_serializer no_payload) (bp_payload no_payload) false))) 1)) /\
  snd (rd_step (rd_run ex_dops) (DMsg 2 (Yield (mkYield (PyInt 2) None None [] no_payload)))) = None.
Proof. repeat split. Qed.
Example C132_dealer_code :
  danswer (fst (drun ex_dops)) (DMsg 1 (Yield (mkYield (PyInt 2) None None [] no_payload))) = DRouted (mkRouted (Result (mkResult (PyInt 4) None None [] no_payload)) 2) /\
  exists text, danswer (fst (drun ex_dops)) (DMsg 2 (Yield (mkYield (PyInt 2) None None [] no_payload))) = DExn (ValueError [text]).
Proof. split; [reflexivity|]. eexists. reflexivity. Qed.
Example C132_dealer_past : rd_run (ex_dops ++ [DMsg 2 (ex_call 4 true); DMsg 1 (Yield (mkYield (PyInt 2) None None [] no_payload)); DLeave 1; DLeave 2]) =
  rd_run [DJoin (ex_det 9); DMsg 9 (Register (mkRegister (PyInt 3) "a" [])); DMsg 9 (Register (mkRegister (PyInt 3) "b" [])); DLeave 9].
Proof. reflexivity. Qed.
