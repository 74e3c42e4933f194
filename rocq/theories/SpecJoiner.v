(** * SpecJoiner: joiner behaviour in terms of its history only (newest first). *)
From Coq Require Import String List ZArith Bool.
From Verif Require Import PyBase Messages SpecHistory Joiner.
Import ListNotations.

Inductive jop :=
| JHello (roles : option dict)                                            (* the user calls send_hello *)
| JRecv (authn : challenge -> res authenticate) (m : message).            (* a message arrives *)
(** Operation and whether it returned normally. *)
Definition jentry := (jop * bool)%type.

Definition hello_sent (e : jentry) : bool := match e with (JHello _, _) => true | _ => false end.
Definition welcome_taken (e : jentry) : bool := match e with (JRecv _ (Welcome _), true) => true | _ => false end.
Definition challenge_answered (e : jentry) : bool :=
  match e with (JRecv _ (Challenge _), true) => true | _ => false end.
Definition accepted_welcome (e : jentry) : option welcome :=
  match e with (JRecv _ (Welcome w), true) => Some w | _ => None end.

(** A HELLO was sent and no WELCOME accepted since. *)
Definition awaiting_welcome := since hello_sent welcome_taken.
(** The last step that took effect was send_hello. *)
Definition awaiting_challenge := since hello_sent (fun e => welcome_taken e || challenge_answered e).
