(** * Utf8: Python's strict UTF-8 codec and big-endian integers, shared by the three wire codecs.  Definitions only.

    Part of the Python runtime, not of /repo. *)
From Coq Require Import String Ascii List ZArith Bool.
From Verif Require Import PyBase Rawsocket Encoding.
Import ListNotations.
Local Open Scope Z_scope.

(** Code points, and Unicode scalar values: code points except the surrogates. *)
Definition is_code (p : Z) : bool := (0 <=? p) && (p <=? 1114111).
Definition is_scalar (p : Z) : bool := (0 <=? p) && (p <? 55296) || (57344 <=? p) && (p <=? 1114111).

(** [chr(p).encode('utf-8', 'surrogatepass')] *)
Definition utf8_char (p : Z) : bytes :=
  if p <? 128 then [byte_of p]
  else if p <? 2048 then [byte_of (192 + p / 64); byte_of (128 + p mod 64)]
  else if p <? 65536 then [byte_of (224 + p / 4096); byte_of (128 + p / 64 mod 64); byte_of (128 + p mod 64)]
  else [byte_of (240 + p / 262144); byte_of (128 + p / 4096 mod 64); byte_of (128 + p / 64 mod 64); byte_of (128 + p mod 64)].
Definition utf8_encode (ps : list Z) : bytes := flat_map utf8_char ps.

Definition cont (a : ascii) : bool := (128 <=? byte_Z a) && (byte_Z a <? 192).
Definition cons_opt {A} (x : A) (o : option (list A)) : option (list A) :=
  match o with Some l => Some (x :: l) | None => None end.

(** [b.decode()] as code points, of which only those with [ok] are allowed; [None] is UnicodeDecodeError. *)
Fixpoint decode_points (ok : Z -> bool) (b : bytes) : option (list Z) :=
  match b with
  | [] => Some []
  | x :: b1 =>
      let c := byte_Z x in
      if c <? 128 then cons_opt c (decode_points ok b1)
      else
        match b1 with
        | [] => None
        | y :: b2 =>
            if negb (cont y) then None
            else if (194 <=? c) && (c <? 224) then cons_opt (64 * (c - 192) + (byte_Z y - 128)) (decode_points ok b2)
            else
              match b2 with
              | [] => None
              | z :: b3 =>
                  if negb (cont z) then None
                  else if (224 <=? c) && (c <? 240) then
                    let p := 4096 * (c - 224) + 64 * (byte_Z y - 128) + (byte_Z z - 128) in
                    if (2048 <=? p) && ok p then cons_opt p (decode_points ok b3) else None
                  else
                    match b3 with
                    | [] => None
                    | w :: b4 =>
                        let p := 262144 * (c - 240) + 4096 * (byte_Z y - 128) + 64 * (byte_Z z - 128) + (byte_Z w - 128) in
                        if cont w && (240 <=? c) && (65536 <=? p) && ok p then cons_opt p (decode_points ok b4) else None
                    end
              end
        end
  end.

(** [b.decode()] *)
Definition utf8_decode : bytes -> option (list Z) := decode_points is_scalar.
(** [b.decode('utf-8', 'surrogatepass')].  A [str] is represented by these octets: any sequence of code points. *)
Definition str_points : bytes -> option (list Z) := decode_points is_code.

Definition utf8_valid (b : bytes) : bool := match utf8_decode b with Some _ => true | None => false end.
Definition is_str (b : bytes) : bool := match str_points b with Some _ => true | None => false end.
(** [s.encode()]; a UnicodeEncodeError is a ValueError. *)
Definition strict_encode (s : string) : res bytes :=
  if utf8_valid (encode_str s) then Ok (encode_str s) else Raise (ValueError ["surrogates not allowed"%string]).

(** Surrogates, and texts in which no high surrogate stands directly before a low one. *)
Definition is_high (p : Z) : bool := (55296 <=? p) && (p <? 56320).
Definition is_low (p : Z) : bool := (56320 <=? p) && (p <? 57344).
Fixpoint no_pair (ps : list Z) : bool :=
  match ps with
  | p :: ((q :: _) as r) => negb (is_high p && is_low q) && no_pair r
  | _ => true
  end.

(** [z.to_bytes(n, 'big')] for 0 <= z < 256^n, and [int.from_bytes(b, 'big')]. *)
Fixpoint to_be (n : nat) (z : Z) : bytes :=
  match n with O => [] | S n' => byte_of (z / 256 ^ Z.of_nat n' mod 256) :: to_be n' z end.
Definition of_be (b : bytes) : Z := fold_left (fun acc a => 256 * acc + byte_Z a) b 0.

(** Reading [n] octets from the input. *)
Definition take (n : nat) (b : bytes) : res (bytes * bytes) :=
  if (n <=? length b)%nat then Ok (firstn n b, skipn n b) else Raise (CodecError "incomplete input").
Definition take_int (n : nat) (b : bytes) : res (Z * bytes) := let! (x, r) := take n b in Ok (of_be x, r).

(** Two's complement of [n] octets. *)
Definition signed (n : nat) (z : Z) : Z := if z <? 2 ^ (8 * Z.of_nat n - 1) then z else z - 2 ^ (8 * Z.of_nat n).
