(** * Rawsocket: wampproto/transports/rawsocket.py.  Definitions only. *)
From Coq Require Import String Ascii List ZArith Bool.
From Verif Require Import PyBase.
Import ListNotations.
Local Open Scope Z_scope.

(** Python's view of an octet: indexing [bytes] yields an int in 0..255. *)
Definition byte_Z (a : ascii) : Z := Z.of_N (N_of_ascii a).

(** [bytes([x, y, ...])]: ValueError unless every element is in range(0, 256). *)
Fixpoint py_bytes (l : list Z) : res bytes :=
  match l with
  | [] => Ok []
  | z :: l' =>
      if (0 <=? z) && (z <? 256) then
        let! r := py_bytes l' in Ok (ascii_of_N (Z.to_N z) :: r)
      else Raise (ValueError ["bytes must be in range(0, 256)"%string])
  end.

(** rawsocket.py:3-6 *)
Definition MAGIC := 127.
Definition PROTOCOL_MAX_MSG_SIZE := 2 ^ 24.

(** rawsocket.py:17-29 *)
Record handshake := mkHandshake { hs_protocol : Z; hs_max_msg_size : Z }.
(** rawsocket.py:39-51 *)
Record header := mkHeader { hd_kind : Z; hd_length : Z }.

(** rawsocket.py:96-103 *)
Definition int_to_bytes (i : Z) : res bytes :=
  py_bytes [Z.land (Z.shiftr i 16) 255; Z.land (Z.shiftr i 8) 255; Z.land i 255].

(** rawsocket.py:106-113: the loop over [reversed(b)] with accumulators n and shift. *)
Fixpoint bytes_to_int_loop (rb : bytes) (n shift : Z) : Z :=
  match rb with
  | [] => n
  | byte :: rb' => bytes_to_int_loop rb' (Z.lor n (Z.shiftl (byte_Z byte) shift)) (shift + 8)
  end.
Definition bytes_to_int (b : bytes) : Z := bytes_to_int_loop (rev b) 0 0.

(** rawsocket.py:53-62 *)
Definition header_to_bytes (h : header) : res bytes :=
  let! data := int_to_bytes (hd_length h) in
  match data with
  | d0 :: d1 :: d2 :: _ => py_bytes [hd_kind h; byte_Z d0; byte_Z d1; byte_Z d2]
  | _ => Raise IndexError
  end.

(** rawsocket.py:64-66 *)
Definition header_from_bytes (data : bytes) : res header :=
  match data with
  | [] => Raise IndexError
  | d0 :: rest => Ok (mkHeader (byte_Z d0) (bytes_to_int rest))
  end.

(** rawsocket.py:69-80 [send_handshake] = [Handshake.to_bytes] (31-32).  [math.log2] of a non-positive int raises
    ValueError.  [int(math.log2(n))] is [Z.log2 n] for every n < 2**48 (the float result is exact enough); above
    that the float may round up to the next power, but both values exceed 24 and lead to the same ValueError. *)
Definition send_handshake (hs : handshake) : res bytes :=
  if hs_max_msg_size hs <=? 0 then Raise (ValueError ["math domain error"%string])
  else py_bytes [MAGIC;
                 Z.lor (Z.shiftl (Z.log2 (hs_max_msg_size hs) - 9) 4) (Z.land (hs_protocol hs) 15);
                 0; 0].

(** rawsocket.py:83-93 [receive_handshake] = [Handshake.from_bytes] (34-36).  Error texts abbreviated. *)
Definition receive_handshake (data : bytes) : res handshake :=
  match data with
  | [d0; d1; d2; d3] =>
      if negb (byte_Z d0 =? MAGIC) then Raise (ValueError ["Expected MAGIC"%string])
      else if negb (byte_Z d2 =? 0) && negb (byte_Z d3 =? 0) then
        Raise (ValueError ["Expected 0x00 for third and fourth byte of handshake response"%string])
      else Ok (mkHandshake (Z.land (byte_Z d1) 15) (Z.shiftl 1 (Z.shiftr (byte_Z d1) 4 + 9)))
  | _ => Raise (ValueError ["Expected 4 bytes for handshake response"%string])
  end.
