(** * SpecE2E: data of a handshake that every serializer can carry.  Definitions only. *)
From Coq Require Import String List ZArith.
From Verif Require Import PyBase Messages Serializer SpecSchema SpecFrames SpecCodec.
Import ListNotations.
Local Open Scope Z_scope.

(** Roles given to the constructor: known role names, plain feature dicts; [None] means the default. *)
Definition roles_ok (roles : option dict) : Prop := match roles with Some r => wf_roles r /\ small r | None => True end.

Definition handshake_data (realm authid : string) (extra : dict) (roles sroles : option dict) (sid : Z) : Prop :=
  short_text realm /\ short_text authid /\ small extra /\ roles_ok roles /\ roles_ok sroles /\ 1 <= sid <= 2 ^ 53.

Fixpoint map_res {A B} (f : A -> res B) (l : list A) : res (list B) :=
  match l with [] => Ok [] | x :: l' => let! y := f x in let! ys := map_res f l' in Ok (y :: ys) end.
(** Messages of one serializer as frames of kind 0. *)
Definition send_messages (c : codec) (ms : list message) : res bytes :=
  let! bs := map_res (serialize c) ms in send_frames (map (fun b => (0, b)) bs).
Definition read_messages (c : codec) (fuel : nat) (s : bytes) : list (res message) :=
  map (fun f => deserialize c (snd f)) (fst (take_frames fuel s)).
