(** * PropsTransport: property theorems C15-C20. *)
From Coq Require Import ZArith Lia Ascii String List Bool.
From Verif Require Import PyBase Rawsocket SpecFrames RawsocketFacts IdGen IdGenFacts.
Import ListNotations.
Local Open Scope Z_scope.

(** C15: header round trip, and every 4-octet string is the encoding of exactly one header. *)
Theorem C15_header_round_trip :
  (forall k n, 0 <= k < 256 -> 0 <= n < 2 ^ 24 ->
     exists b, header_to_bytes (mkHeader k n) = Ok b /\ length b = 4%nat /\
               header_from_bytes b = Ok (mkHeader k n)) /\
  (forall b, length b = 4%nat ->
     exists k n, 0 <= k < 256 /\ 0 <= n < 2 ^ 24 /\ header_to_bytes (mkHeader k n) = Ok b /\
       forall k' n', 0 <= k' < 256 -> 0 <= n' < 2 ^ 24 ->
         header_to_bytes (mkHeader k' n') = Ok b -> k' = k /\ n' = n).
Proof. exact (conj header_round_trip header_surjective). Qed.
Print Assumptions C15_header_round_trip.

Example C15_instance : header_to_bytes (mkHeader 1 66051) = Ok ["001"%char; "001"%char; "002"%char; "003"%char].
Proof. vm_compute. reflexivity. Qed.

(** C16 fails: the protocol's maximum length 2**24 is framed as length 0. *)
Theorem C16_max_length_refuted : exists b,
  header_to_bytes (mkHeader 0 PROTOCOL_MAX_MSG_SIZE) = Ok b /\ header_from_bytes b = Ok (mkHeader 0 0).
Proof. exact (ex_intro _ [zero; zero; zero; zero] (conj eq_refl eq_refl)). Qed.
Print Assumptions C16_max_length_refuted.

(** What holds: every length is encoded modulo 2**24 (so faithfully below it, and never rejected); a kind outside
    0..255 is rejected. *)
Theorem C16_length_mod_partial :
  (forall k n, 0 <= k < 256 ->
     exists b, header_to_bytes (mkHeader k n) = Ok b /\ length b = 4%nat /\
               header_from_bytes b = Ok (mkHeader k (n mod 2 ^ 24))) /\
  (forall k n, ~ (0 <= k < 256) -> exists s, header_to_bytes (mkHeader k n) = Raise (ValueError s)).
Proof. exact (conj header_decode header_to_bytes_bad). Qed.
Print Assumptions C16_length_mod_partial.

(** C17: handshake round trip and negotiated size. *)
Theorem C17_handshake :
  (forall p n, 512 <= n < 2 ^ 25 ->
     exists b, send_handshake (mkHandshake p n) = Ok b /\ length b = 4%nat /\
               receive_handshake b = Ok (mkHandshake (p mod 16) (2 ^ Z.log2 n))) /\
  (forall n, 0 < n -> 2 ^ Z.log2 n <= n < 2 * 2 ^ Z.log2 n) /\
  (forall p k, 0 <= p < 16 -> 9 <= k <= 24 ->
     exists b, send_handshake (mkHandshake p (2 ^ k)) = Ok b /\ receive_handshake b = Ok (mkHandshake p (2 ^ k))) /\
  (forall p n, n < 512 \/ 2 ^ 25 <= n -> exists s, send_handshake (mkHandshake p n) = Raise (ValueError s)).
Proof. exact (conj handshake_ok (conj log2_power_below (conj handshake_exact handshake_bad))). Qed.
Print Assumptions C17_handshake.

Example C17_instance : send_handshake (mkHandshake 2 1000000) = Ok ["127"%char; "162"%char; zero; zero]
  /\ receive_handshake ["127"%char; "162"%char; zero; zero] = Ok (mkHandshake 2 (2 ^ 19)).
Proof. split; vm_compute; reflexivity. Qed.

(** C18 fails: one non-zero reserved octet is accepted. *)
Theorem C18_reserved_refuted : exists h, receive_handshake ["127"%char; "162"%char; "001"%char; zero] = Ok h.
Proof. exact (ex_intro _ (mkHandshake 2 (2 ^ 19)) eq_refl). Qed.
Print Assumptions C18_reserved_refuted.

(** What holds: exactly the 4-octet strings starting with the magic octet and having at least one reserved octet
    zero are accepted, everything else raises ValueError. *)
Theorem C18_malformed_partial :
  (forall b, (exists h, receive_handshake b = Ok h) <->
     exists d1 d2 d3, b = [octet 127; d1; d2; d3] /\ (byte_Z d2 = 0 \/ byte_Z d3 = 0)) /\
  (forall b e, receive_handshake b = Raise e -> exists s, e = ValueError s).
Proof. exact (conj handshake_accepts handshake_raises). Qed.
Print Assumptions C18_malformed_partial.

(** C19: framed streams decode uniquely, also when cut in the middle of a frame. *)
Theorem C19_framed_streams :
  (forall fs, Forall frame_ok fs -> forall rest, take_frame rest = None ->
     exists s, send_frames fs = Ok s /\
       forall fuel, (length fs < fuel)%nat -> take_frames fuel (s ++ rest) = (fs, rest)) /\
  (forall f a p q, frame_ok f -> send_frame f = Ok a -> a = p ++ q -> q <> [] -> take_frame p = None).
Proof. exact (conj take_frames_ok take_frame_prefix). Qed.
Print Assumptions C19_framed_streams.

Example C19_nonvacuous :
  Forall frame_ok [(0, ["a"%char; "b"%char]); (1, []); (255, ["c"%char])] /\ take_frame [zero; zero] = None.
Proof. split; [repeat constructor; cbn; lia|reflexivity]. Qed.

(** C20: ids of a fresh generator. *)
Theorem C20_ids :
  (forall n k, (k < n)%nat -> nth_error (next_ids n idgen_init) k = Some (Z.of_nat k mod 2 ^ 53 + 1)) /\
  (forall n g, length (next_ids n g) = n) /\
  (forall g, 0 <= g <= 2 ^ 53 -> 1 <= fst (next_id g) <= 2 ^ 53 /\ snd (next_id g) = fst (next_id g)) /\
  (forall n g i j x, 0 <= g <= 2 ^ 53 -> (i < j < n)%nat -> Z.of_nat j - Z.of_nat i < 2 ^ 53 ->
     nth_error (next_ids n g) i = Some x -> nth_error (next_ids n g) j <> Some x).
Proof.
  exact (conj (fun n k => next_ids_nth n 0 k (conj (Z.le_refl 0) (Z.lt_le_incl 0 ID_MAX eq_refl)))
        (conj next_ids_length (conj next_id_range next_ids_distinct))).
Qed.
Print Assumptions C20_ids.

Example C20_instance : next_ids 3 idgen_init = [1; 2; 3] /\ next_ids 3 (2 ^ 53 - 1) = [2 ^ 53; 1; 2].
Proof. split; vm_compute; reflexivity. Qed.
