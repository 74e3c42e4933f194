(** * Ed25519: RFC 8032 section 5.1 with the checks of libsodium's [crypto_sign_verify_detached], which PyNaCl provides
    to auth/cryptosign.py:17-18,39,45.  Definitions only.

    Third-party code: modelled from the standard, not from /repo; checked against published vectors in
    CryptoVectors.v. *)
From Coq Require Import String Ascii List ZArith NArith Bool.
From Verif Require Import PyBase Encoding Auth Sha2.
Import ListNotations.
Local Open Scope Z_scope.

(** ** The field and the curve [-x^2 + y^2 = 1 + d x^2 y^2] *)
Definition P25519 : Z := 2 ^ 255 - 19.
Definition L25519 : Z := 2 ^ 252 + 27742317777372353535851937790883648493.
(** [x] modulo [P25519], partly reduced: [2^255 = 19]. *)
Definition fold25519 (x : Z) : Z := Z.land x (2 ^ 255 - 1) + 19 * Z.shiftr x 255.
Definition red (x : Z) : Z := fold25519 (fold25519 x).
Fixpoint pow_pos (b : Z) (e : positive) : Z :=
  match e with
  | xH => red b
  | xO e' => let r := pow_pos b e' in red (r * r)
  | xI e' => let r := pow_pos b e' in red (red (r * r) * b)
  end.
Definition pow25519 (b e : Z) : Z := match e with Zpos p => pow_pos (b mod P25519) p | _ => 1 end.
Definition inv25519 (x : Z) : Z := pow25519 x (P25519 - 2).
Definition D25519 : Z := 37095705934669439343138083508754565189542113879843219016388785533085940283555.
Definition SQRT_M1 : Z := 19681161376707505956807079304988542015446066515923890162744021073123829784752.

(** Extended homogeneous coordinates [x = X/Z, y = Y/Z, x*y = T/Z] (RFC 8032 section 5.1.4). *)
Definition point := (Z * Z * Z * Z)%type.
Definition neutral : point := (0, 1, 1, 0).
Definition point_add (p q : point) : point :=
  let '(x1, y1, z1, t1) := p in
  let '(x2, y2, z2, t2) := q in
  let a := red ((y1 - x1) * (y2 - x2)) in
  let b := red ((y1 + x1) * (y2 + x2)) in
  let c := red (2 * t1 * red (t2 * D25519)) in
  let d := red (2 * z1 * z2) in
  let e := b - a in
  let f := d - c in
  let g := d + c in
  let h := b + a in
  (red (e * f), red (g * h), red (f * g), red (e * h)).
Fixpoint point_mul_pos (s : positive) (p : point) : point :=
  match s with
  | xH => p
  | xO s' => let q := point_mul_pos s' p in point_add q q
  | xI s' => let q := point_mul_pos s' p in point_add (point_add q q) p
  end.
Definition point_mul (s : Z) (p : point) : point := match s with Zpos s' => point_mul_pos s' p | _ => neutral end.
Definition point_neg (p : point) : point :=
  let '(x, y, z, t) := p in (- x, y, z, - t).
Definition is_neutral (p : point) : bool :=
  let '(x, y, z, _) := p in (x mod P25519 =? 0) && ((y - z) mod P25519 =? 0).
Definition BASE : point :=
  let x := 15112221349535400772501151409588531511454012693041857206046113283949847762202 in
  let y := 46316835694926478169428394003475163141307993866256225615783033603165251855960 in
  (x, y, 1, (x * y) mod P25519).

(** ** Encoding (little-endian) *)
Definition le_octets (n : nat) (x : Z) : bytes := rev (to_octets n x).
Definition of_le_octets (b : bytes) : Z := of_octets (rev b).
Definition encode_point (p : point) : bytes :=
  let '(x, y, z, _) := p in
  let zi := inv25519 z in
  le_octets 32 ((y * zi) mod P25519 + 2 ^ 255 * (((x * zi) mod P25519) mod 2)).
(** RFC 8032 section 5.1.3; a non-canonical [y] is rejected, as libsodium does for public keys. *)
Definition decode_point (b : bytes) : option point :=
  let n := of_le_octets b in
  let y := n mod 2 ^ 255 in
  let sign := n / 2 ^ 255 in
  if P25519 <=? y then None
  else
    let x2 := ((y * y - 1) * inv25519 (D25519 * (y * y) + 1)) mod P25519 in
    if x2 =? 0 then (if sign =? 1 then None else Some (0, y, 1, 0))
    else
      let x := pow25519 x2 ((P25519 + 3) / 8) in
      let x := (if (x * x - x2) mod P25519 =? 0 then x else x * SQRT_M1) mod P25519 in
      if negb ((x * x - x2) mod P25519 =? 0) then None
      else
        let x := if x mod 2 =? sign then x else P25519 - x in
        Some (x, y, 1, (x * y) mod P25519).
Definition small_order (p : point) : bool := is_neutral (point_mul 8 p).

(** ** Keys and signatures *)
Definition clamp (h : bytes) : Z :=
  let a := of_le_octets (firstn 32 h) in
  (a mod 2 ^ 254) / 8 * 8 + 2 ^ 254.
Definition hash_scalar (b : bytes) : Z := of_le_octets (digest SHA512 b) mod L25519.

Definition ed25519_public (seed : bytes) : bytes := encode_point (point_mul (clamp (digest SHA512 seed)) BASE).
Definition ed25519_sign (seed m : bytes) : bytes :=
  let h := digest SHA512 seed in
  let a := clamp h in
  let pub := encode_point (point_mul a BASE) in
  let r := hash_scalar (skipn 32 h ++ m) in
  let R := encode_point (point_mul r BASE) in
  let s := (r + hash_scalar (R ++ pub ++ m) * a) mod L25519 in
  R ++ le_octets 32 s.
Definition ed25519_verify (pub m sig : bytes) : bool :=
  let R := firstn 32 sig in
  let s := of_le_octets (skipn 32 sig) in
  match decode_point R, decode_point pub with
  | Some PR, Some A =>
      if negb (s <? L25519) || small_order PR || small_order A then false
      else if list_eq_dec ascii_dec R
            (encode_point (point_add (point_mul s BASE) (point_mul (hash_scalar (R ++ pub ++ m)) (point_neg A))))
           then true else false
  | _, _ => false
  end.

(** The primitives that CPython and PyNaCl provide. *)
Definition real_crypto : crypto := mkCrypto hmac hashlib_pbkdf2 ed25519_public ed25519_sign ed25519_verify.
