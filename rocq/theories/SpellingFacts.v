(** * SpellingFacts: the spelling of a value makes no difference. *)
From Coq Require Import List ZArith Bool Lia.
From Verif Require Import PyBase Messages Parse Serializer MsgPack Cbor Json JsonBytes Float Codecs SpecSchema RoundTripFacts SpecFormat SpecCbor SpecMsgPack SpecJson
  Auth Session Joiner Acceptor Broker Dealer Network ByteNetwork HostileNetwork CborFormat MsgPackFormat JsonFormat FormatMessages PayloadFacts SpecSpelling.
Import ListNotations.
Local Open Scope Z_scope.

Lemma spelling_loads c v b : spelling c v b -> loads c b = Ok v.
Proof.
  intros H; inversion H; subst.
  - apply cbor_reads_item. assumption.
  - apply msgpack_exact. assumption.
  - eapply json_reads; eassumption.
  - eapply json_bytes_reads; eassumption.
Qed.
Lemma spelling_same c v b b' : spelling c v b -> spelling c v b' -> deserialize c b = deserialize c b'.
Proof. intros H H'. unfold deserialize. rewrite (spelling_loads _ _ _ H), (spelling_loads _ _ _ H'). reflexivity. Qed.
Lemma spelling_message c m b : wf_message m -> spelling c (VList (marshal m)) b -> deserialize c b = Ok (normalise m).
Proof. intros W H. apply read_message; [exact W|]. apply spelling_loads. exact H. Qed.
Lemma spelling_nonempty c v b : spelling c v b -> b <> [].
Proof. intros H ->. pose proof (spelling_loads _ _ _ H) as L. inversion H; subst; vm_compute in L; discriminate L. Qed.
Lemma receive_spelling c v b b' : spelling c v b -> spelling c v b' ->
  (forall s, receive c s b = receive c s b') /\
  (forall authn j, joiner_receive c authn j b = joiner_receive c authn j b') /\
  (forall cr e a, acceptor_receive cr c e a b = acceptor_receive cr c e a b') /\
  decode_payload c b = decode_payload c b'.
Proof.
  intros H H'. pose proof (spelling_same _ _ _ _ H H') as E. unfold receive, joiner_receive, acceptor_receive. rewrite E. repeat split.
  destruct b as [|x b]; [destruct (spelling_nonempty _ _ _ H eq_refl)|]. destruct b' as [|x' b']; [destruct (spelling_nonempty _ _ _ H' eq_refl)|].
  apply spelling_loads in H, H'. cbn [decode_payload]. rewrite H, H'. reflexivity.
Qed.

(** ** Networks *)
Section Networks.
  Context (codec_of : Z -> codec).
  Definition same_client (x y : Z * bclient) : Prop :=
    fst x = fst y /\ bc_codec (snd x) = codec_of (fst x) /\ bc_codec (snd y) = codec_of (fst x) /\ bc_session (snd x) = bc_session (snd y) /\
    bc_down (snd x) = bc_down (snd y) /\ Forall2 (fun b b' => deserialize (codec_of (fst x)) b = deserialize (codec_of (fst x)) b') (bc_up (snd x)) (bc_up (snd y)).
  Definition same_net (n n' : bnet) : Prop :=
    Forall2 same_client (bn_clients n) (bn_clients n') /\ bn_broker n = bn_broker n' /\ bn_dealer n = bn_dealer n'.
  Lemma get_same cs cs' s : Forall2 same_client cs cs' ->
    (zget s cs = None /\ zget s cs' = None) \/ (exists cl cl', zget s cs = Some cl /\ zget s cs' = Some cl' /\ same_client (s, cl) (s, cl')).
  Proof.
    induction 1 as [|[k cl] [k' cl'] cs cs' H _ IH]; [left; split; reflexivity|]. destruct H as (E & H). cbn [fst] in E. subst k'.
    unfold zget in *. cbn [dget]. destruct (Z.eqb_spec s k) as [->|]; [|exact IH]. right. exists cl, cl'. split; [reflexivity|]. split; [reflexivity|]. split; [reflexivity|exact H].
  Qed.
  Lemma set_same cs cs' s cl cl' : Forall2 same_client cs cs' -> same_client (s, cl) (s, cl') -> Forall2 same_client (zset s cl cs) (zset s cl' cs').
  Proof.
    intros H C. unfold zset. induction H as [|[k x] [k' x'] cs cs' H R IH]; cbn [dset]; [constructor; [exact C|constructor]|].
    pose proof H as (E & _). cbn [fst] in E. subst k'. destruct (Z.eqb_spec s k) as [->|]; constructor; try assumption.
  Qed.
  Lemma del_same cs cs' s : Forall2 same_client cs cs' -> Forall2 same_client (zdel s cs) (zdel s cs').
  Proof.
    unfold zdel. induction 1 as [|[k x] [k' x'] cs cs' H R IH]; cbn [ddel]; [constructor|]. pose proof H as (E & _). cbn [fst] in E. subst k'.
    destruct (s =? k); [assumption|constructor; assumption].
  Qed.
  Lemma post_same posts cs cs' : Forall2 same_client cs cs' -> Forall2 same_client (bpost posts cs) (bpost posts cs').
  Proof.
    unfold bpost. induction 1 as [|[k x] [k' x'] cs cs' H R IH]; cbn [map]; constructor; [|exact IH].
    destruct H as (E & C & C' & S & D & U). cbn [fst snd] in *. subst k'. unfold same_client. cbn [fst snd bc_codec bc_session bc_up bc_down].
    rewrite D, C, C'. repeat split; assumption.
  Qed.
  Definition typed_join (a : waction) : Prop := match a with WJoin d c => c = codec_of (pyint_Z (det_session d)) | _ => True end.
  Lemma step_same n n' a : typed_join a -> same_net n n' -> same_net (fst (bytes_step n a)) (fst (bytes_step n' a)) /\ snd (bytes_step n a) = snd (bytes_step n' a).
  Proof.
    intros T N. pose proof N as (C & B & D). destruct n as [cs br de], n' as [cs' br' de']. cbn [bn_clients bn_broker bn_dealer] in *. subst br' de'.
    destruct a as [d c|s|s m|s|s]; cbn [bytes_step bn_clients bn_broker bn_dealer].
    - cbn [typed_join] in T. subst c. destruct (b_add_session br d) as [b1 [?|?]], (d_add_session de d) as [d1 [?|?]]; (split; [|reflexivity]); try exact N.
      cbn [fst]. split; [|split; reflexivity]. apply set_same; [exact C|]. unfold same_client. cbn. repeat split. constructor.
    - destruct (b_remove_session br s) as [b1 [?|?]], (d_remove_session de s) as [d1 [?|?]]; (split; [|reflexivity]); try exact N.
      cbn [fst]. split; [|split; reflexivity]. apply del_same. exact C.
    - destruct (get_same cs cs' s C) as [[-> ->]|(cl & cl' & -> & -> & R)]; [split; [exact N|reflexivity]|].
      destruct R as (_ & K & K' & S & Dn & U). cbn [fst snd] in *. rewrite K, K', S. destruct (send_message (codec_of s) (bc_session cl') m) as [se r].
      split; [|reflexivity]. cbn [fst]. split; [|split; reflexivity]. apply set_same; [exact C|]. unfold same_client. cbn [fst snd bc_codec bc_session bc_up bc_down].
      repeat split; try assumption. destruct r; [|exact U]. apply Forall2_app; [exact U|]. constructor; [reflexivity|constructor].
    - destruct (get_same cs cs' s C) as [[-> ->]|(cl & cl' & -> & -> & R)]; [split; [exact N|reflexivity]|].
      destruct cl as [c se up down], cl' as [c' se' up' down']. destruct R as (_ & K & K' & S & Dn & U). cbn [fst snd bc_codec bc_session bc_up bc_down] in *. subst c c' se' down'.
      destruct U as [|b b' up up' E U]; [split; [exact N|reflexivity]|]. rewrite E.
      destruct (match deserialize (codec_of s) b' with Ok m => _ | Raise _ => _ end) as [[b1 d1] posts]. split; [|reflexivity]. cbn [fst]. split; [|split; reflexivity].
      apply post_same. apply set_same; [exact C|]. unfold same_client. cbn [fst snd bc_codec bc_session bc_up bc_down]. repeat split; assumption.
    - destruct (get_same cs cs' s C) as [[-> ->]|(cl & cl' & -> & -> & R)]; [split; [exact N|reflexivity]|].
      destruct cl as [c se up down], cl' as [c' se' up' down']. destruct R as (_ & K & K' & S & Dn & U). cbn [fst snd bc_codec bc_session bc_up bc_down] in *. subst c c' se' down'.
      destruct down as [|b down]; [split; [exact N|reflexivity]|]. destruct (receive (codec_of s) se b) as [se' r]. split; [|reflexivity]. cbn [fst]. split; [|split; reflexivity].
      apply set_same; [exact C|]. unfold same_client. cbn [fst snd bc_codec bc_session bc_up bc_down]. repeat split; assumption.
  Qed.
  Lemma put_same n n' s b b' : same_net n n' -> deserialize (codec_of s) b = deserialize (codec_of s) b' ->
    same_net (fst (hstep n (HPut s b))) (fst (hstep n' (HPut s b'))) /\ snd (hstep n (HPut s b)) = snd (hstep n' (HPut s b')).
  Proof.
    intros N E. pose proof N as (C & B & D). destruct n as [cs br de], n' as [cs' br' de']. cbn [bn_clients bn_broker bn_dealer] in *. subst br' de'.
    cbn [hstep bn_clients bn_broker bn_dealer]. destruct (get_same cs cs' s C) as [[-> ->]|(cl & cl' & -> & -> & R)]; [split; [exact N|reflexivity]|].
    destruct R as (_ & K & K' & S & Dn & U). cbn [fst snd] in *. split; [|reflexivity]. cbn [fst]. split; [|split; reflexivity].
    apply set_same; [exact C|]. unfold same_client. cbn [fst snd bc_codec bc_session bc_up bc_down]. repeat split; try assumption.
    apply Forall2_app; [exact U|]. constructor; [exact E|constructor].
  Qed.
  Lemma run_same acts acts' : respelled codec_of acts acts' -> forall n n' h h', same_net n n' -> map snd h = map snd h' ->
    let r := fold_left hstep_h acts (n, h) in let r' := fold_left hstep_h acts' (n', h') in same_net (fst r) (fst r') /\ map snd (snd r) = map snd (snd r').
  Proof.
    cbv zeta.
    assert (G : forall a a' acts acts', (forall n n', same_net n n' -> same_net (fst (hstep n a)) (fst (hstep n' a')) /\ snd (hstep n a) = snd (hstep n' a')) ->
      (forall n n' h h', same_net n n' -> map snd h = map snd h' ->
        same_net (fst (fold_left hstep_h acts (n, h))) (fst (fold_left hstep_h acts' (n', h'))) /\ map snd (snd (fold_left hstep_h acts (n, h))) = map snd (snd (fold_left hstep_h acts' (n', h')))) ->
      forall n n' h h', same_net n n' -> map snd h = map snd h' ->
        same_net (fst (fold_left hstep_h (a :: acts) (n, h))) (fst (fold_left hstep_h (a' :: acts') (n', h'))) /\
        map snd (snd (fold_left hstep_h (a :: acts) (n, h))) = map snd (snd (fold_left hstep_h (a' :: acts') (n', h')))).
    { intros a a' l l' St IH n n' h h' N E. cbn [fold_left]. unfold hstep_h at 2 4 6 8. cbn [fst snd]. destruct (St n n' N) as [A B].
      destruct (hstep n a) as [m o], (hstep n' a') as [m' o']. cbn [fst snd] in A, B. apply IH; [exact A|]. cbn [map snd]. rewrite B, E. reflexivity. }
    induction 1 as [|d l l' _ IH|a l l' J _ IH|s v b b' l l' S S' _ IH|s b l l' _ IH].
    - intros n n' h h' N E. split; assumption.
    - apply G; [|exact IH]. intros n n' N. cbn [hstep]. apply step_same; [reflexivity|exact N].
    - apply G; [|exact IH]. intros n n' N. cbn [hstep]. apply step_same; [|exact N]. destruct a; cbn [typed_join]; try exact Logic.I. exfalso. eapply J. reflexivity.
    - apply G; [|exact IH]. intros n n' N. apply put_same; [exact N|]. exact (spelling_same _ _ _ _ S S').
    - apply G; [|exact IH]. intros n n' N. apply put_same; [exact N|reflexivity].
  Qed.
  Lemma visible_same n n' : same_net n n' -> visible n = visible n'.
  Proof.
    intros (C & _). unfold visible. induction C as [|[k x] [k' x'] cs cs' H _ IH]; [reflexivity|]. cbn [map]. rewrite IH.
    destruct H as (E & K & K' & S & D & _). cbn [fst snd] in *. subst k'. rewrite K, K', S, D. reflexivity.
  Qed.
End Networks.
Lemma network_spelling codec_of acts acts' : respelled codec_of acts acts' ->
  let r := hrun acts in let r' := hrun acts' in
  map snd (snd r) = map snd (snd r') /\ visible (fst r) = visible (fst r') /\ bn_broker (fst r) = bn_broker (fst r') /\ bn_dealer (fst r) = bn_dealer (fst r').
Proof.
  intros H. cbv zeta. destruct (run_same codec_of acts acts' H bnet_init bnet_init [] []) as [N E]; [split; [constructor|split; reflexivity]|reflexivity|].
  split; [exact E|]. split; [exact (visible_same codec_of _ _ N)|]. destruct N as (_ & A & B). split; assumption.
Qed.
