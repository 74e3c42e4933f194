(** * SpecBase64: hexadecimal and base64 texts as in RFC 4648 (and, for decoding, the leniency of [binascii]).  Definitions only. *)
From Coq Require Import String Ascii List ZArith NArith Bool.
From Verif Require Import PyBase.
Import ListNotations.
Local Open Scope Z_scope.

Definition octet (z : Z) : ascii := ascii_of_N (Z.to_N z).
Definition number (a : ascii) : Z := Z.of_N (N_of_ascii a).
Definition chars (s : string) : list ascii := list_ascii_of_string s.

(** ** Hexadecimal *)
Definition HEX : list ascii := chars "0123456789abcdef".
Definition hex_pair (a : ascii) : list ascii := [nth (Z.to_nat (number a / 16)) HEX "?"%char; nth (Z.to_nat (number a mod 16)) HEX "?"%char].
Definition hex_text (b : bytes) : list ascii := flat_map hex_pair b.
(** [s.lower()] on ASCII *)
Definition lower (a : ascii) : ascii := if (65 <=? number a) && (number a <=? 90) then octet (number a + 32) else a.

(** ** base64 *)
Definition ALPHABET : list ascii := chars "ABCDEFGHIJKLMNOPQRSTUVWXYZabcdefghijklmnopqrstuvwxyz0123456789+/".
Definition letter (v : Z) : ascii := nth (Z.to_nat v) ALPHABET "?"%char.
Fixpoint index (a : ascii) (l : list ascii) : option Z :=
  match l with
  | [] => None
  | x :: l' => if Ascii.eqb a x then Some 0 else option_map Z.succ (index a l')
  end.
(** Three octets are a number of 24 bits; four letters are its groups of six bits. *)
Definition quad (x y z : Z) : list ascii :=
  let n := x * 65536 + y * 256 + z in [letter (n / 262144); letter (n / 4096 mod 64); letter (n / 64 mod 64); letter (n mod 64)].
Fixpoint base64 (b : bytes) : list ascii :=
  match b with
  | [] => []
  | [x] => firstn 2 (quad (number x) 0 0) ++ ["="%char; "="%char]
  | [x; y] => firstn 3 (quad (number x) (number y) 0) ++ ["="%char]
  | x :: y :: z :: b' => quad (number x) (number y) (number z) ++ base64 b'
  end.

(** The six-bit values of the letters of a text; everything else is skipped. *)
Definition values (s : list ascii) : list Z := flat_map (fun a => match index a ALPHABET with Some v => [v] | None => [] end) s.
Definition triple (a b c d : Z) : bytes :=
  let n := a * 262144 + b * 4096 + c * 64 + d in map octet [n / 65536; n / 256 mod 256; n mod 256].
Fixpoint octets_of (vs : list Z) : bytes :=
  match vs with
  | a :: b :: c :: d :: vs' => triple a b c d ++ octets_of vs'
  | [a; b; c] => firstn 2 (triple a b c 0)
  | [a; b] => firstn 1 (triple a b 0 0)
  | _ => []
  end.
(** An equals sign after [p] ends the data: it follows an incomplete group of three letters, or it is the second after an
    incomplete group of two. *)
Definition ends_data (p : list ascii) : Prop :=
  (length (values p) mod 4 = 3)%nat \/
  (length (values p) mod 4 = 2)%nat /\ exists p1 p2, p = p1 ++ "="%char :: p2 /\ values p2 = [].
Definition first_end (s p : list ascii) : Prop :=
  (exists r, s = p ++ "="%char :: r) /\ ends_data p /\ forall p' r', p = p' ++ "="%char :: r' -> ~ ends_data p'.
(** What [base64.b64decode] makes of the text [s], if anything. *)
Definition decodes (s : list ascii) (b : bytes) : Prop :=
  (exists p, first_end s p /\ b = octets_of (values p)) \/
  (forall p, ~ first_end s p) /\ (length (values s) mod 4 = 0)%nat /\ b = octets_of (values s).
