(** * Encoding: Python's [binascii] / [base64] functions as used by wampproto/auth.  Definitions only.

    These follow CPython's Modules/binascii.c (non-strict mode) and Lib/base64.py; they are part of the Python
    runtime, not of /repo. *)
From Coq Require Import String Ascii List ZArith Bool.
From Verif Require Import PyBase Rawsocket.
Import ListNotations.
Local Open Scope Z_scope.

Definition byte_of (z : Z) : ascii := ascii_of_N (Z.to_N z).

(** [s.encode()] and [b.decode()] for UTF-8 text; [str] is represented by its UTF-8 octets. *)
Definition encode_str (s : string) : bytes := list_ascii_of_string s.
Definition decode_str (b : bytes) : string := string_of_list_ascii b.

(** [s.isascii()] *)
Definition is_ascii (b : bytes) : bool := forallb (fun a => byte_Z a <? 128) b.

(** ** hex *)
Definition hex_digit (z : Z) : ascii := byte_of (if z <? 10 then 48 + z else 87 + z).
Definition hex_value (a : ascii) : option Z :=
  let c := byte_Z a in
  if (48 <=? c) && (c <=? 57) then Some (c - 48)
  else if (97 <=? c) && (c <=? 102) then Some (c - 87)
  else if (65 <=? c) && (c <=? 70) then Some (c - 55)
  else None.

(** [binascii.hexlify(b).decode()], also nacl's [HexEncoder.encode] and [bytes.hex()]. *)
Fixpoint hexlify (b : bytes) : bytes :=
  match b with
  | [] => []
  | x :: b' => hex_digit (byte_Z x / 16) :: hex_digit (byte_Z x mod 16) :: hexlify b'
  end.

(** The decoding loop on data of even length. *)
Fixpoint unhex_pairs (s : bytes) : option bytes :=
  match s with
  | [] => Some []
  | a :: b :: s' =>
      match hex_value a, hex_value b, unhex_pairs s' with
      | Some x, Some y, Some r => Some (byte_of (16 * x + y) :: r)
      | _, _, _ => None
      end
  | [_] => None
  end.

(** [binascii.unhexlify] / [binascii.a2b_hex] on bytes. *)
Definition unhexlify_bytes (s : bytes) : res bytes :=
  if Nat.odd (length s) then Raise (BinasciiError "Odd-length string")
  else match unhex_pairs s with Some r => Ok r | None => Raise (BinasciiError "Non-hexadecimal digit found") end.

(** ... on a str. *)
Definition unhexlify_str (s : string) : res bytes :=
  let b := encode_str s in
  if is_ascii b then unhexlify_bytes b
  else Raise (ValueError ["string argument should contain only ASCII characters"%string]).

(** ... on any Python object. *)
Definition unhexlify (v : val) : res bytes :=
  match v with
  | VStr s => unhexlify_str s
  | VBytes b => unhexlify_bytes b
  | _ => Raise (TypeError "argument should be bytes, buffer or ASCII string")
  end.

(** ** base64 *)
Definition b64_char (z : Z) : ascii :=
  byte_of (if z <? 26 then 65 + z else if z <? 52 then 71 + z else if z <? 62 then z - 4
           else if z =? 62 then 43 else 47).
Definition b64_value (a : ascii) : option Z :=
  let c := byte_Z a in
  if (65 <=? c) && (c <=? 90) then Some (c - 65)
  else if (97 <=? c) && (c <=? 122) then Some (c - 71)
  else if (48 <=? c) && (c <=? 57) then Some (c + 4)
  else if c =? 43 then Some 62
  else if c =? 47 then Some 63
  else None.
Definition pad_char : ascii := "="%char.

(** [base64.b64encode] *)
Fixpoint b64encode (b : bytes) : bytes :=
  match b with
  | [] => []
  | [x] => [b64_char (byte_Z x / 4); b64_char (byte_Z x mod 4 * 16); pad_char; pad_char]
  | [x; y] => [b64_char (byte_Z x / 4); b64_char (byte_Z x mod 4 * 16 + byte_Z y / 16);
               b64_char (byte_Z y mod 16 * 4); pad_char]
  | x :: y :: z :: b' =>
      b64_char (byte_Z x / 4) :: b64_char (byte_Z x mod 4 * 16 + byte_Z y / 16)
      :: b64_char (byte_Z y mod 16 * 4 + byte_Z z / 64) :: b64_char (byte_Z z mod 64) :: b64encode b'
  end.

(** [binascii.a2b_base64], non-strict: characters outside the alphabet are skipped; a sufficient run of '=' ends the
    data.  [q] = quad_pos, [left] = leftchar, [pads]. *)
Fixpoint a2b_base64 (s : bytes) (q : nat) (left : Z) (pads : nat) : res bytes :=
  match s with
  | [] =>
      match q with
      | 0%nat => Ok []
      | 1%nat => Raise (BinasciiError "Invalid base64-encoded string")
      | _ => Raise (BinasciiError "Incorrect padding")
      end
  | ch :: s' =>
      if Ascii.eqb ch pad_char then
        if (2 <=? q)%nat then
          if (4 <=? q + S pads)%nat then Ok [] else a2b_base64 s' q left (S pads)
        else a2b_base64 s' q left pads
      else
        match b64_value ch with
        | None => a2b_base64 s' q left pads
        | Some v =>
            match q with
            | 0%nat => a2b_base64 s' 1 v 0
            | 1%nat => let! r := a2b_base64 s' 2 (v mod 16) 0 in Ok (byte_of (left * 4 + v / 16) :: r)
            | 2%nat => let! r := a2b_base64 s' 3 (v mod 4) 0 in Ok (byte_of (left * 16 + v / 4) :: r)
            | _ => let! r := a2b_base64 s' 0 0 0 in Ok (byte_of (left * 64 + v) :: r)
            end
        end
  end.

(** [base64.b64decode(s)] for a str *)
Definition b64decode_str (s : string) : res bytes :=
  let b := encode_str s in
  if is_ascii b then a2b_base64 b 0 0 0
  else Raise (ValueError ["string argument should contain only ASCII characters"%string]).
