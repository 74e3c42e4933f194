(** * SpecFrames: what it means to send and to read a stream of RawSocket frames (for C19). *)
From Coq Require Import ZArith List.
From Verif Require Import PyBase Rawsocket.
Import ListNotations.
Local Open Scope Z_scope.

(** The reader a user writes: a 4-octet header, then as many octets as it announces. *)
Definition take_frame (s : bytes) : option ((Z * bytes) * bytes) :=
  match s with
  | a :: b :: c :: d :: rest =>
      match header_from_bytes [a; b; c; d] with
      | Ok h => let n := Z.to_nat (hd_length h) in
                if (n <=? length rest)%nat then Some ((hd_kind h, firstn n rest), skipn n rest) else None
      | Raise _ => None
      end
  | _ => None
  end.
Fixpoint take_frames (fuel : nat) (s : bytes) : list (Z * bytes) * bytes :=
  match fuel with
  | O => ([], s)
  | S fuel' => match take_frame s with
               | Some (f, s') => let (fs, r) := take_frames fuel' s' in (f :: fs, r)
               | None => ([], s)
               end
  end.

(** A frame as sent: header, then body. *)
Definition send_frame (f : Z * bytes) : res bytes :=
  let! h := header_to_bytes (mkHeader (fst f) (Z.of_nat (length (snd f)))) in Ok (h ++ snd f).
Fixpoint send_frames (fs : list (Z * bytes)) : res bytes :=
  match fs with
  | [] => Ok []
  | f :: fs' => let! a := send_frame f in let! b := send_frames fs' in Ok (a ++ b)
  end.
Definition frame_ok (f : Z * bytes) : Prop := 0 <= fst f < 256 /\ Z.of_nat (length (snd f)) < 2 ^ 24.
