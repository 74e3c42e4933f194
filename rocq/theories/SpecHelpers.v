(** * SpecHelpers: vocabulary of C89-C94.  Definitions only. *)
From Coq Require Import String List ZArith Bool.
From Verif Require Import PyBase Messages Helpers.
Import ListNotations.
Local Open Scope Z_scope.

(** [t] is part of [s]. *)
Definition contains (t s : string) : Prop := exists a b, s = (a ++ (t ++ b))%string.

Definition valid_time (t : datetime) : Prop :=
  1000 <= t_year t <= 9999 /\ 1 <= t_month t <= 12 /\ 1 <= t_day t <= 31 /\ 0 <= t_hour t < 24 /\ 0 <= t_minute t < 60 /\
  0 <= t_second t < 60 /\ 0 <= t_micro t < 1000000.
Fixpoint lex (a b : list Z) : comparison :=
  match a, b with
  | x :: a', y :: b' => match x ?= y with Eq => lex a' b' | c => c end
  | _, _ => Eq
  end.
(** To the millisecond, coarsest unit first. *)
Definition instant (t : datetime) : list Z :=
  [t_year t; t_month t; t_day t; t_hour t; t_minute t; t_second t; t_micro t / 1000].

(** Messages that share an option dict agree on the payload serializer. *)
Definition agreeing (os : list optmsg) : Prop :=
  forall o o', In o os -> In o' os -> fst o = fst o' -> bp_serializer (bin_of (snd o)) = bp_serializer (bin_of (snd o')).

(** [d] is the options, details or extra dict that the message was built with; messages that have none are built with any. *)
Definition built_with (m : message) (d : dict) : Prop :=
  match m with
  | Call m => ca_opts m = d | Invocation m => iv_dets m = d | Result m => re_dets m = d | Yield m => yi_opts m = d
  | Publish m => pb_options m = d | Event m => ev_details m = d | Error m => er_details m = d
  | Subscribe m => su_options m = d | Register m => rg_options m = d | Cancel m => cn_options m = d | Interrupt m => it_options m = d
  | Goodbye m => gb_details m = d | Abort m => ab_details m = d | Challenge m => ch_extra m = d | Authenticate m => au_extra m = d
  | _ => True
  end.
