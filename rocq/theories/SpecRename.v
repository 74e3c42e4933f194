(** * SpecRename: other names for sessions and URIs, other payloads. *)
From Coq Require Import String Ascii List ZArith Bool.
From Verif Require Import PyBase Messages Joiner Broker SpecBroker Dealer SpecDealer.
Import ListNotations.

Record renaming := mkRenaming {
  r_session : Z -> Z; r_uri : string -> string;                                          (* names *)
  r_args : list val -> list val; r_kwargs : dict -> dict; r_octets : bytes -> bytes }.   (* payloads *)

(** Different names stay different; payloads may be changed in any way. *)
Definition faithful (N : renaming) : Prop :=
  (forall s s', r_session N s = r_session N s' -> s = s') /\ (forall u u', r_uri N u = r_uri N u' -> u = u').

Section Renaming.
  Variable N : renaming.
  Definition args_ := option_map (r_args N).
  Definition kwargs_ := option_map (r_kwargs N).
  Definition bin_ (p : binpayload) : binpayload := mkBin (bp_serializer p) (option_map (r_octets N) (bp_payload p)) (bp_binary p).

  (** Topic, procedure and payload change; ids, options and the URI of an ERROR do not. *)
  Definition event_ (m : event) : event := mkEvent (ev_subscription m) (ev_publication m) (args_ (ev_args m)) (kwargs_ (ev_kwargs m)) (ev_details m).
  Definition publish_ (m : publish) : publish := mkPublish (pb_request m) (r_uri N (pb_topic m)) (args_ (pb_args m)) (kwargs_ (pb_kwargs m)) (pb_options m).
  Definition renamed (m : message) : message :=
    match m with
    | Publish m => Publish (publish_ m)
    | Subscribe m => Subscribe (mkSubscribe (su_request m) (r_uri N (su_topic m)) (su_options m))
    | Event m => Event (event_ m)
    | Register m => Register (mkRegister (rg_request m) (r_uri N (rg_procedure m)) (rg_options m))
    | Call m => Call (mkCall (ca_request m) (r_uri N (ca_procedure m)) (args_ (ca_args m)) (kwargs_ (ca_kwargs m)) (ca_opts m) (bin_ (ca_bin m)))
    | Invocation m => Invocation (mkInvocation (iv_request m) (iv_registration m) (args_ (iv_args m)) (kwargs_ (iv_kwargs m)) (iv_dets m) (bin_ (iv_bin m)))
    | Yield m => Yield (mkYield (yi_request m) (args_ (yi_args m)) (kwargs_ (yi_kwargs m)) (yi_opts m) (bin_ (yi_bin m)))
    | Result m => Result (mkResult (re_request m) (args_ (re_args m)) (kwargs_ (re_kwargs m)) (re_dets m) (bin_ (re_bin m)))
    | Error m => Error (mkError (er_type m) (er_request m) (er_uri m) (args_ (er_args m)) (kwargs_ (er_kwargs m)) (er_details m))
    | m => m
    end.
  Definition routed_ (r : routed) : routed := mkRouted (renamed (rt_message r)) (r_session N (rt_recipient r)).
  Definition details_ (d : details) : details := mkDetails (PyInt (r_session N (pyint_Z (det_session d)))) (det_realm d) (det_authid d) (det_authrole d).
  Definition publication_ (p : publication) : publication :=
    mkPublication (option_map event_ (pu_event p)) (map (r_session N) (pu_recipients p)) (option_map routed_ (pu_ack p)).

  (** Calls with the other names. *)
  Definition bop_ (o : bop) : bop :=
    match o with
    | BJoin d => BJoin (details_ d) | BLeave s => BLeave (r_session N s)
    | BMsg s m => BMsg (r_session N s) (renamed m) | BPub s m => BPub (r_session N s) (publish_ m)
    end.
  Definition dop_ (o : dop) : dop :=
    match o with
    | DJoin d => DJoin (details_ d) | DLeave s => DLeave (r_session N s) | DMsg s m => DMsg (r_session N s) (renamed m)
    end.

  (** Exceptions of the same class; the text of a ValueError may name a session. *)
  Definition same_class (e e' : exn) : Prop := match e, e' with ValueError _, ValueError _ => True | _, _ => e' = e end.
  Definition bout_ (r r' : bout) : Prop :=
    match r, r' with
    | OExn e, OExn e' => same_class e e'
    | ODone, _ => r' = ODone
    | ORouted x, _ => r' = ORouted (routed_ x)
    | OPub p, _ => r' = OPub (publication_ p)
    | OExn _, _ => False
    end.
  Definition dout_ (r r' : dout) : Prop :=
    match r, r' with
    | DExn e, DExn e' => same_class e e'
    | DDone, _ => r' = DDone
    | DRouted x, _ => r' = DRouted (routed_ x)
    | DExn _, _ => False
    end.
End Renaming.
