(** * JoinerFacts: runs of a joiner. *)
From Coq Require Import String Ascii List ZArith Bool Lia.
From Verif Require Import PyBase Messages Serializer SpecHistory Auth Joiner SpecJoiner.
Import ListNotations.
Local Open Scope Z_scope.

Definition ok {A} (r : res A) : bool := match r with Ok _ => true | Raise _ => false end.

Definition jstep (c : codec) (jh : joiner * list jentry) (o : jop) : joiner * list jentry :=
  let '(j, h) := jh in
  match o with
  | JHello roles => let '(j', r) := send_hello c j roles in (j', (o, ok r) :: h)
  | JRecv authn m => let '(j', r) := joiner_receive_message authn j m in (j', (o, ok r) :: h)
  end.
Definition jrun (c : codec) (realm method authid : string) (extra : dict) (ops : list jop) : joiner * list jentry :=
  fold_left (jstep c) ops (joiner_init realm method authid extra, []).

Definition welcome_details (realm : string) (w : welcome) : details :=
  mkDetails (we_session w) realm (we_authid w) (we_authrole w).

Record JInv (realm method authid : string) (extra : dict) (j : joiner) (h : list jentry) : Prop := mkJInv {
  ji_attrs : j_realm j = realm /\ j_method j = method /\ j_authid j = authid /\ j_extra j = extra;
  ji_welcome : awaiting_welcome h = match j_state j with J_HELLO_SENT | J_AUTHENTICATE_SENT => true | _ => false end;
  ji_challenge : awaiting_challenge h = match j_state j with J_HELLO_SENT => true | _ => false end;
  ji_details : j_details j = option_map (welcome_details realm) (latest accepted_welcome h) }.

Lemma JInv_step c re me ai ex j h o : JInv re me ai ex j h ->
  JInv re me ai ex (fst (jstep c (j, h) o)) (snd (jstep c (j, h) o)).
Proof.
  intros [(A1 & A2 & A3 & A4) W C D]. destruct o as [roles|authn m].
  - cbn [jstep send_hello]. constructor; cbn [fst snd]; unfold awaiting_welcome, awaiting_challenge; try reflexivity.
    + auto.
    + exact D.
  - destruct m; try (cbn [jstep joiner_receive_message fst snd ok]; constructor; auto; fail).
    + (* Welcome *)
      cbn [jstep joiner_receive_message].
      destruct (j_state j) eqn:S; cbn [fst snd ok]; unfold awaiting_welcome, awaiting_challenge in *;
        constructor; cbn [since hello_sent welcome_taken challenge_answered orb j_state latest accepted_welcome];
        rewrite ?S; auto; unfold welcome_details; cbn; rewrite A1; reflexivity.
    + (* Challenge *)
      cbn [jstep joiner_receive_message].
      destruct (j_state j) eqn:S; [| destruct (authn m) | |]; cbn [fst snd ok];
        unfold awaiting_welcome, awaiting_challenge in *;
        constructor; cbn [since hello_sent welcome_taken challenge_answered orb j_state set_jstate latest accepted_welcome];
        rewrite ?S; auto.
Qed.

Lemma jrun_snoc c re me ai ex ops o : jrun c re me ai ex (ops ++ [o]) = jstep c (jrun c re me ai ex ops) o.
Proof. unfold jrun. rewrite fold_left_app. reflexivity. Qed.

Lemma JInv_run c re me ai ex ops :
  JInv re me ai ex (fst (jrun c re me ai ex ops)) (snd (jrun c re me ai ex ops)).
Proof.
  induction ops as [|o ops IH] using rev_ind.
  - constructor; try reflexivity. auto.
  - rewrite jrun_snoc. destruct (jrun c re me ai ex ops) as [j h]. apply JInv_step. exact IH.
Qed.

Section Reached.
  Context (c : codec) (re me ai : string) (ex : dict) (ops : list jop).
  Let j := fst (jrun c re me ai ex ops).
  Let h := snd (jrun c re me ai ex ops).

  Lemma details_iff d : joiner_details j = Ok d <->
    exists w, latest accepted_welcome h = Some w /\ d = welcome_details re w.
  Proof.
    destruct (JInv_run c re me ai ex ops) as [_ _ _ D]. unfold joiner_details. fold j h in D |- *. rewrite D.
    destruct (latest accepted_welcome h) as [w|]; cbn [option_map].
    - split; [intros H; injection H as <-; eauto|]. intros (w' & H & ->). injection H as ->. reflexivity.
    - split; [discriminate|]. intros (w' & H & _). discriminate.
  Qed.

  Lemma no_details : latest accepted_welcome h = None -> exists e, joiner_details j = Raise (ValueError [e]).
  Proof.
    destruct (JInv_run c re me ai ex ops) as [_ _ _ D]. unfold joiner_details. fold j h in D |- *. rewrite D.
    intros ->. eexists. reflexivity.
  Qed.

  Lemma welcome_iff authn w :
    (awaiting_welcome h = true ->
       snd (joiner_receive_message authn j (Welcome w)) = Ok None /\
       joiner_details (fst (joiner_receive_message authn j (Welcome w))) = Ok (welcome_details re w)) /\
    (awaiting_welcome h = false ->
       exists e, joiner_receive_message authn j (Welcome w) = (j, Raise (ValueError [e]))).
  Proof.
    destruct (JInv_run c re me ai ex ops) as [(A1 & _) W _ _]. fold j h in A1, W. rewrite W.
    cbn [joiner_receive_message]. destruct (j_state j); (split; [intros X|intros X]); try discriminate;
      try (eexists; reflexivity); cbn; rewrite A1; split; reflexivity.
  Qed.

  Lemma challenge_iff authn m :
    (awaiting_challenge h = true ->
       snd (joiner_receive_message authn j (Challenge m)) = (let! a := authn m in Ok (Some (Authenticate a)))) /\
    (awaiting_challenge h = false ->
       exists e, joiner_receive_message authn j (Challenge m) = (j, Raise (ValueError [e]))).
  Proof.
    destruct (JInv_run c re me ai ex ops) as [_ _ C _]. fold j h in C. rewrite C.
    cbn [joiner_receive_message]. destruct (j_state j); (split; [intros X|intros X]); try discriminate;
      try (eexists; reflexivity). destruct (authn m); reflexivity.
  Qed.
End Reached.

(** Answered challenges never outnumber hellos. *)
Lemma times_cons' {E} p (e : E) h : times p (e :: h) = ((if p e then 1 else 0) + times p h)%nat.
Proof. unfold times. cbn [filter]. destruct (p e); reflexivity. Qed.

Lemma one_answer_per_hello c re me ai ex ops :
  (times challenge_answered (snd (jrun c re me ai ex ops)) <= times hello_sent (snd (jrun c re me ai ex ops)))%nat.
Proof.
  enough (H : (times challenge_answered (snd (jrun c re me ai ex ops)) +
    (if awaiting_challenge (snd (jrun c re me ai ex ops)) then 1 else 0) <=
    times hello_sent (snd (jrun c re me ai ex ops)))%nat) by lia.
  induction ops as [|o ops IH] using rev_ind; [cbn; lia|].
  rewrite jrun_snoc. pose proof (JInv_run c re me ai ex ops) as I. destruct (jrun c re me ai ex ops) as [j h].
  cbn [fst snd] in *. destruct I as [_ _ C _].
  destruct o as [roles|authn m].
  - cbn [jstep send_hello snd]. rewrite !times_cons'. unfold awaiting_challenge in *.
    cbn [since hello_sent challenge_answered]. destruct (since _ _ h); lia.
  - cbn [jstep]. destruct (joiner_receive_message authn j m) as [j' r] eqn:E. cbn [snd].
    rewrite !times_cons'. unfold awaiting_challenge in *. cbn [since hello_sent].
    destruct m; cbn [challenge_answered welcome_taken orb]; try lia.
    + destruct (ok r); cbn [orb]; destruct (since _ _ h); lia.
    + destruct (ok r) eqn:K; cbn [orb]; [|lia].
      cbn [joiner_receive_message] in E. destruct (j_state j); try (injection E as <- <-; discriminate K).
      rewrite C in IH. lia.
Qed.

Lemma abort_raises authn j m :
  joiner_receive_message authn j (Abort m) = (j, Raise (ApplicationError (ab_reason m) (ab_args m) (ab_kwargs m))).
Proof. reflexivity. Qed.

(** After ABORT, a WELCOME is accepted exactly if it was acceptable before. *)
Lemma abort_no_effect c re me ai ex ops authn ab :
  awaiting_welcome (snd (jrun c re me ai ex (ops ++ [JRecv authn (Abort ab)]))) =
  awaiting_welcome (snd (jrun c re me ai ex ops)).
Proof. rewrite jrun_snoc. destruct (jrun c re me ai ex ops). reflexivity. Qed.

(** Without a further send_hello, if nothing was awaited at the ABORT then no later WELCOME is accepted. *)
Lemma not_awaiting_stays c re me ai ex ops ops' :
  awaiting_welcome (snd (jrun c re me ai ex ops)) = false ->
  (forall roles, ~ In (JHello roles) ops') ->
  awaiting_welcome (snd (jrun c re me ai ex (ops ++ ops'))) = false.
Proof.
  intros H N. induction ops' as [|o ops' IH] using rev_ind; [rewrite app_nil_r; exact H|].
  rewrite app_assoc, jrun_snoc.
  assert (IH' : awaiting_welcome (snd (jrun c re me ai ex (ops ++ ops'))) = false).
  { apply IH. intros r Hr. apply (N r). apply in_or_app. left. exact Hr. }
  destruct (jrun c re me ai ex (ops ++ ops')) as [j h]. destruct o as [roles|authn m].
  - exfalso. apply (N roles). apply in_or_app. right. left. reflexivity.
  - cbn [jstep]. destruct (joiner_receive_message authn j m). cbn [snd] in *.
    unfold awaiting_welcome in *. cbn [since hello_sent]. destruct (welcome_taken _); auto.
Qed.

(** Bytes. *)
Lemma joiner_receive_bytes c authn j b m : deserialize c b = Ok m ->
  fst (joiner_receive c authn j b) = fst (joiner_receive_message authn j m) /\
  (forall e, snd (joiner_receive_message authn j m) = Raise e -> snd (joiner_receive c authn j b) = Raise e) /\
  (snd (joiner_receive_message authn j m) = Ok None -> snd (joiner_receive c authn j b) = Ok None) /\
  (forall a, snd (joiner_receive_message authn j m) = Ok (Some a) ->
     snd (joiner_receive c authn j b) = (let! x := serialize c a in Ok (Some x))).
Proof.
  intros H. unfold joiner_receive. rewrite H.
  destruct (joiner_receive_message authn j m) as [j' r] eqn:E. cbn [fst snd].
  split; [reflexivity|]. split; [intros e ->; reflexivity|]. split; [intros ->; reflexivity|].
  intros a ->. cbn [bind]. destruct m; cbn in E; try (injection E; discriminate).
  - destruct (j_state j); injection E; discriminate.
  - destruct (j_state j); try (injection E; discriminate). destruct (authn m); try (injection E; discriminate).
    injection E as _ E. subst a. reflexivity.
Qed.

Lemma hello_sent_fields c re me ai ex ops roles :
  snd (send_hello c (fst (jrun c re me ai ex ops)) roles) =
  serialize c (Hello (mkHello re (match roles with Some r => r | None => CLIENT_ROLES end) (Some ai)
                               (Some [VStr me]) (Some ex))).
Proof.
  destruct (JInv_run c re me ai ex ops) as [(A1 & A2 & A3 & A4) _ _ _].
  unfold send_hello, joiner_hello. cbn [snd]. rewrite A1, A2, A3, A4. reflexivity.
Qed.

Lemma joiner_receive_undecodable c authn j b e :
  deserialize c b = Raise e -> joiner_receive c authn j b = (j, Raise e).
Proof. intros H. unfold joiner_receive. rewrite H. reflexivity. Qed.

Lemma joiner_others_refused authn j m :
  match m with Welcome _ | Challenge _ | Abort _ => False | _ => True end ->
  exists e, joiner_receive_message authn j m = (j, Raise (ValueError [e])).
Proof. destruct m; intros H; try contradiction; eexists; reflexivity. Qed.

Lemma challenge_authn_raises c re me ai ex ops authn m e :
  awaiting_challenge (snd (jrun c re me ai ex ops)) = true -> authn m = Raise e ->
  joiner_receive_message authn (fst (jrun c re me ai ex ops)) (Challenge m) = (fst (jrun c re me ai ex ops), Raise e).
Proof.
  destruct (JInv_run c re me ai ex ops) as [_ _ C _]. rewrite C. intros H A. cbn [joiner_receive_message].
  destruct (j_state _); try discriminate. rewrite A. reflexivity.
Qed.

Lemma abort_bytes_raise c authn j b m : deserialize c b = Ok (Abort m) ->
  joiner_receive c authn j b = (j, Raise (ApplicationError (ab_reason m) (ab_args m) (ab_kwargs m))).
Proof. intros Hd. unfold joiner_receive. rewrite Hd. reflexivity. Qed.

Lemma abort_not_final : exists c realm method authid extra ops authn ab w,
  let j := fst (jrun c realm method authid extra (ops ++ [JRecv authn (Abort ab)])) in
  joiner_receive_message authn j (Welcome w) =
    (fst (joiner_receive_message authn j (Welcome w)), Ok None) /\
  exists d, joiner_details (fst (joiner_receive_message authn j (Welcome w))) = Ok d.
Proof.
  exists {| dumps := fun _ => Ok []; loads := fun _ => Raise (CodecError "") |}, "realm1"%string, "anonymous"%string, "joe"%string, [],
    [JHello None], (fun _ => Raise NotImplementedError), (mkAbort [] "wamp.error.authentication_failed" None None),
    (mkWelcome (PyInt 1) [] None None None []).
  cbn. split; [reflexivity|]. eexists. reflexivity.
Qed.

Lemma abort_final_partial c re me ai ex ops authn ab ops' :
  awaiting_welcome (snd (jrun c re me ai ex ops)) = false ->
  (forall roles, ~ In (JHello roles) ops') ->
  awaiting_welcome (snd (jrun c re me ai ex ((ops ++ [JRecv authn (Abort ab)]) ++ ops'))) = false.
Proof. intros H N. apply not_awaiting_stays; [|exact N]. rewrite abort_no_effect. exact H. Qed.
