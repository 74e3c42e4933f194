(** * SpecAlike: messages that differ only in their names, payloads and ids.  Definitions only. *)
From Coq Require Import String List ZArith Bool.
From Verif Require Import PyBase Messages SpecSession.
Import ListNotations.
Local Open Scope Z_scope.

(** What an id is the id of: a request of some kind, an invocation, a registration or a subscription. *)
Inductive space := Request (k : kind) | Registration | Subscription.

(** All of a message that a session may look at: its type (and the type of the request an ERROR is about), the ids it mentions, and
    whether a PUBLISH asks to be acknowledged. *)
Definition shape (m : message) : list Z * list (space * Z) * bool :=
  match m with
  | Call m => ([48], [(Request KCall, pyint_Z (ca_request m))], false)
  | Result m => ([50], [(Request KCall, pyint_Z (re_request m))], false)
  | Publish m => ([16], [(Request KPublish, pyint_Z (pb_request m))],
                  match sget "acknowledge" (pb_options m) with Some v => truthy v | None => false end)
  | Published m => ([17], [(Request KPublish, pyint_Z (pd_request m))], false)
  | Subscribe m => ([32], [(Request KSubscribe, pyint_Z (su_request m))], false)
  | Subscribed m => ([33], [(Request KSubscribe, pyint_Z (sd_request m)); (Subscription, pyint_Z (sd_subscription m))], false)
  | Unsubscribe m => ([34], [(Request KUnsubscribe, pyint_Z (us_request m)); (Subscription, pyint_Z (us_subscription m))], false)
  | Unsubscribed m => ([35], [(Request KUnsubscribe, pyint_Z (ud_request m))], false)
  | Event m => ([36], [(Subscription, pyint_Z (ev_subscription m))], false)
  | Register m => ([64], [(Request KRegister, pyint_Z (rg_request m))], false)
  | Registered m => ([65], [(Request KRegister, pyint_Z (rd_request m)); (Registration, pyint_Z (rd_registration m))], false)
  | Unregister m => ([66], [(Request KUnregister, pyint_Z (ur_request m)); (Registration, pyint_Z (ur_registration m))], false)
  | Unregistered m => ([67], [(Request KUnregister, pyint_Z (un_request m))], false)
  | Invocation m => ([68], [(Request KInvocation, pyint_Z (iv_request m)); (Registration, pyint_Z (iv_registration m))], false)
  | Yield m => ([70], [(Request KInvocation, pyint_Z (yi_request m))], false)
  | Error m =>
      let t := pyint_Z (er_type m) in
      ([8; t], [(Request (if t =? T_INVOCATION then KInvocation else error_kind t), pyint_Z (er_request m))], false)
  | Hello _ => ([1], [], false) | Welcome _ => ([2], [], false) | Abort _ => ([3], [], false)
  | Challenge _ => ([4], [], false) | Authenticate _ => ([5], [], false) | Goodbye _ => ([6], [], false)
  | Cancel _ => ([49], [], false) | Interrupt _ => ([69], [], false)
  end.

(** [m'] is [m] with every id replaced as [f] says; URIs, options, details and payloads may be anything. *)
Definition alike_msg (f : space -> Z -> Z) (m m' : message) : Prop :=
  shape m' = (fst (fst (shape m)), map (fun kx => (fst kx, f (fst kx) (snd kx))) (snd (fst (shape m))), snd (shape m)).
Definition alike_op (f : space -> Z -> Z) (o o' : op) : Prop :=
  match o, o' with
  | Snd m, Snd m' => alike_msg f m m'
  | Rcv m, Rcv m' => alike_msg f m m'
  | _, _ => False
  end.
(** No two ids of the same sort become one. *)
Definition keeps_apart (f : space -> Z -> Z) : Prop := forall k x y, f k x = f k y -> x = y.
