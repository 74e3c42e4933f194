(** * SpecEd25519: Ed25519 (RFC 8032 section 5.1) on the points of the curve, with the checks of libsodium (C118).  Definitions only. *)
From Coq Require Import Ascii List ZArith Bool.
From Verif Require Import PyBase SpecBase64 SpecSha2.
Import ListNotations.
Local Open Scope Z_scope.
Local Open Scope list_scope.

Definition modulus : Z := 2 ^ 255 - 19.
Definition order : Z := 2 ^ 252 + 27742317777372353535851937790883648493.
Definition same (a b : Z) : Prop := a mod modulus = b mod modulus.

(** The curve [-x^2 + y^2 = 1 + d x^2 y^2] with [d = -121665/121666], and its group law, multiplied by the denominators. *)
Definition on_curve (P : Z * Z) : Prop :=
  let (x, y) := P in
  0 <= x < modulus /\ 0 <= y < modulus /\ same (121666 * (y * y - x * x)) (121666 - 121665 * (x * x * (y * y))).
Definition sum (P Q R : Z * Z) : Prop :=
  let (x1, y1) := P in let (x2, y2) := Q in let (x3, y3) := R in
  0 <= x3 < modulus /\ 0 <= y3 < modulus /\
  same (x3 * (121666 - 121665 * (x1 * x2 * y1 * y2))) (121666 * (x1 * y2 + x2 * y1)) /\
  same (y3 * (121666 + 121665 * (x1 * x2 * y1 * y2))) (121666 * (y1 * y2 + x1 * x2)).
Inductive multiple (P : Z * Z) : nat -> Z * Z -> Prop :=
| multiple_0 : multiple P 0 (0, 1)
| multiple_S n Q R : multiple P n Q -> sum P Q R -> multiple P (S n) R.
(** The base point: [y = 4/5] and [x] even. *)
Definition base_point (B : Z * Z) : Prop := on_curve B /\ same (5 * snd B) 4 /\ fst B mod 2 = 0.
Definition times_base (k : Z) (P : Z * Z) : Prop := exists B, base_point B /\ multiple B (Z.to_nat k) P.
Definition small (P : Z * Z) : Prop := multiple P 8 (0, 1).

(** Octets: least significant first; the point [(x, y)] as [y] with the lowest bit of [x] on top. *)
Definition little (b : bytes) : Z := fold_right (fun a n => number a + 256 * n) 0 b.
Definition encodes (P : Z * Z) (b : bytes) : Prop := on_curve P /\ length b = 32%nat /\ little b = snd P + 2 ^ 255 * (fst P mod 2).

(** [h] is SHA-512 of [m]; [k] is it as a scalar. *)
Definition is_sha512 (m h : bytes) : Prop := all_bits h = sha512 (all_bits m).
Definition scalar (m : bytes) (k : Z) : Prop := exists h, is_sha512 m h /\ k = little h mod order.
(** The secret scalar and the prefix that a seed makes: of the first half of its hash the lowest three bits are cleared, the highest
    is cleared and the second highest set. *)
Definition secret (seed : bytes) (a : Z) (prefix : bytes) : Prop :=
  exists h, is_sha512 seed h /\ a = 2 ^ 254 + 8 * (little (firstn 32 h) / 8 mod 2 ^ 251) /\ prefix = skipn 32 h.
Definition public_key (seed pk : bytes) : Prop := exists a prefix A, secret seed a prefix /\ times_base a A /\ encodes A pk.
Definition signature_of (seed m sig : bytes) : Prop :=
  exists a prefix pk r R first k second,
    secret seed a prefix /\ public_key seed pk /\ scalar (prefix ++ m) r /\ times_base r R /\ encodes R first /\
    scalar (first ++ pk ++ m) k /\ length second = 32%nat /\ little second = (r + k * a) mod order /\ sig = first ++ second.
(** What libsodium accepts: canonical encodings of points of no small order, a reduced scalar, and [R + k A = s B]. *)
Definition valid (pk m sig : bytes) : Prop :=
  exists A R first second k S T,
    sig = first ++ second /\ encodes A pk /\ encodes R first /\ length second = 32%nat /\ little second < order /\ ~ small A /\ ~ small R /\
    scalar (first ++ pk ++ m) k /\ times_base (little second) S /\ multiple A (Z.to_nat k) T /\ sum R T S.
(** The number that a signature of [m] starts from. *)
Definition nonce (seed m : bytes) (r : Z) : Prop := exists a prefix, secret seed a prefix /\ scalar (prefix ++ m) r.
