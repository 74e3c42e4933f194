(** * StreamFacts: messages over a RawSocket stream. *)
From Coq Require Import String Ascii List ZArith Bool Lia.
From Verif Require Import PyBase Rawsocket RawsocketFacts SpecFrames Messages Parse Serializer Codecs SpecSchema SerializerFacts SpecCodec CodecsFacts HandshakeFacts SpecE2E.
Import ListNotations.
Local Open Scope Z_scope.

Lemma app_cut {A} (a b p q : list A) : a ++ b = p ++ q ->
  (exists p', p = a ++ p' /\ b = p' ++ q) \/ (exists q', q' <> [] /\ a = p ++ q').
Proof.
  revert p. induction a as [|x a IH]; intros p H.
  - left. exists p. split; [reflexivity|exact H].
  - destruct p as [|y p]; [right; exists (x :: a); split; [discriminate|reflexivity]|].
    injection H as <- H. destruct (IH p H) as [(p' & -> & E)|(q' & N & ->)]; [left; exists p'; auto|right; exists q'; auto].
Qed.

(** Whatever part of the stream has arrived, exactly the frames it contains in full are read. *)
Lemma take_frames_part fs : Forall frame_ok fs -> forall s p q fuel, send_frames fs = Ok s -> s = p ++ q -> (length fs < fuel)%nat ->
  exists n s1 rest, take_frames fuel p = (firstn n fs, rest) /\ send_frames (firstn n fs) = Ok s1 /\ p = s1 ++ rest /\ take_frame rest = None /\
    (q = [] -> (length fs <= n)%nat).
Proof.
  induction fs as [|f fs IH]; intros F s p q fuel E C L.
  - cbn in E. injection E as <-. symmetry in C. apply app_eq_nil in C as [-> ->]. exists O, [], []. destruct fuel; cbn; auto 6.
  - inversion F as [|? ? Ff Ffs]; subst. cbn [send_frames] in E. destruct (send_frame f) as [a|e] eqn:Sf; [|discriminate E]. cbn [bind] in E.
    destruct (send_frames fs) as [s'|e] eqn:Ss; [|discriminate E]. cbn [bind] in E.
    assert (EE : a ++ s' = p ++ q) by congruence. clear E. destruct fuel as [|fuel]; [cbn in L; lia|].
    destruct (app_cut _ _ _ _ EE) as [(p' & -> & E')|(q' & N & E')].
    + destruct (IH Ffs s' p' q fuel eq_refl E' ltac:(cbn in L; lia)) as (n & s1 & rest & T & S1 & P & R & Q).
      exists (S n), (a ++ s1), rest.
      assert (TF : take_frame (a ++ p') = Some (f, p')) by (destruct (take_frame_ok f p' Ff) as (a' & A1 & A2 & _); congruence).
      split; [|split; [|split; [|split]]].
      * cbn [take_frames]. rewrite TF, T. reflexivity.
      * cbn [firstn send_frames]. rewrite Sf, S1. reflexivity.
      * rewrite P, app_assoc. reflexivity.
      * exact R.
      * intros X. specialize (Q X). cbn. lia.
    + pose proof (take_frame_prefix f a p q' Ff Sf E' N) as TN. exists O, [], p.
      split; [cbn [take_frames]; rewrite TN; reflexivity|]. split; [reflexivity|]. split; [reflexivity|]. split; [exact TN|].
      intros ->. rewrite app_nil_r in EE. subst a. apply (f_equal (@length _)) in EE. rewrite !app_length in EE.
      destruct q'; [contradiction|]. cbn in EE. lia.
Qed.

Lemma map_res_ok c ms : Forall (fun m => carries c m /\ forall b, serialize c m = Ok b -> Z.of_nat (length b) < 2 ^ 24) ms ->
  exists bs, map_res (serialize c) ms = Ok bs /\ length bs = length ms /\ Forall (fun b => Z.of_nat (length b) < 2 ^ 24) bs /\
    forall n, map (deserialize c) (firstn n bs) = map (fun m => Ok (normalise m)) (firstn n ms).
Proof.
  induction 1 as [|m ms [C L] F (bs & B & BL & BF & BD)].
  - exists []. repeat split; auto. intros [|n]; reflexivity.
  - destruct (carried c m C) as (b & S1 & D1). exists (b :: bs). cbn [map_res]. rewrite S1. cbn [bind]. rewrite B. cbn [bind].
    split; [reflexivity|]. split; [cbn; lia|]. split; [constructor; auto|]. intros [|n]; [reflexivity|]. cbn [firstn map]. rewrite D1, BD. reflexivity.
Qed.

Lemma stream_messages c ms : Forall (fun m => carries c m /\ forall b, serialize c m = Ok b -> Z.of_nat (length b) < 2 ^ 24) ms ->
  exists s, send_messages c ms = Ok s /\
    forall p q fuel, s = p ++ q -> (length ms < fuel)%nat ->
      exists n, read_messages c fuel p = map (fun m => Ok (normalise m)) (firstn n ms) /\ (q = [] -> (length ms <= n)%nat).
Proof.
  intros F. destruct (map_res_ok c ms F) as (bs & B & BL & BF & BD).
  assert (FO : Forall frame_ok (map (fun b => (0, b)) bs)).
  { rewrite Forall_map. eapply Forall_impl; [|exact BF]. cbn. intros b Hb. split; cbn; lia. }
  destruct (take_frames_ok _ FO [] eq_refl) as (s & S & _). unfold send_messages. rewrite B. cbn [bind]. exists s. split; [exact S|].
  intros p q fuel E L.
  destruct (take_frames_part _ FO s p q fuel S E ltac:(rewrite map_length; lia)) as (n & s1 & rest & T & _ & _ & _ & Q).
  exists n. unfold read_messages. rewrite T. cbn [fst]. split.
  - rewrite <- BD, firstn_map, map_map. reflexivity.
  - intros X. specialize (Q X). rewrite map_length in Q. lia.
Qed.

Lemma stream_messages_python c ms : is_python_codec c ->
  Forall (fun m => wf_message m /\ portable (VList (marshal m)) /\ forall b, serialize c m = Ok b -> Z.of_nat (length b) < 2 ^ 24) ms ->
  exists s, send_messages c ms = Ok s /\
    forall p q fuel, s = p ++ q -> (length ms < fuel)%nat ->
      exists n, read_messages c fuel p = map (fun m => Ok (normalise m)) (firstn n ms) /\ (q = [] -> (length ms <= n)%nat).
Proof.
  intros C F. apply stream_messages. eapply Forall_impl; [|exact F]. intros m (W & P & B). split; [|exact B].
  split; [exact W|]. apply portable_round_trips; assumption.
Qed.
