(** * Random: Python's [random.randbytes] and [random.randint], from which wampproto/auth/cryptosign.py:34, wampproto/auth/wampcra.py:55
    and wampproto/idgen.py:7 take challenges, nonces and session ids.  Definitions only.

    [random] is part of the Python runtime (Modules/_randommodule.c and Lib/random.py), not of /repo: a Mersenne twister whose state, 624
    words of 32 bits and an index, is shared by the whole process and seeded once.  The seed is not modelled: a state is given. *)
From Coq Require Import String Ascii List ZArith Bool.
From Verif Require Import PyBase Encoding Auth.
Import ListNotations.
Local Open Scope Z_scope.

(** [RandomObject]: [uint32_t state[N]; int index] *)
Record twister := mkTwister { tw_words : list Z; tw_index : nat }.
Definition tw_size : nat := 624.
Definition tw_shift : nat := 397.

(** [y = (a & UPPER_MASK) | (b & LOWER_MASK)] and [(y >> 1) ^ mag01[y & 1]] *)
Definition tw_mix (a b : Z) : Z :=
  let y := Z.lor (Z.land a 0x80000000) (Z.land b 0x7fffffff) in
  Z.lxor (Z.shiftr y 1) (if Z.odd y then 0x9908b0df else 0).

(** [l[i] = v] *)
Definition set_nth (i : nat) (v : Z) (l : list Z) : list Z := firstn i l ++ v :: skipn (S i) l.

(** One turn of the loops that renew the state in place.  C has three loops, for kk < 227, for kk < 623, and for the last word; here
    the indices are taken modulo 624 instead. *)
Definition tw_turn (mt : list Z) (kk : nat) : list Z :=
  set_nth kk (Z.lxor (nth ((kk + tw_shift) mod tw_size) mt 0) (tw_mix (nth kk mt 0) (nth ((kk + 1) mod tw_size) mt 0))) mt.
Definition tw_renew (mt : list Z) : list Z := fold_left tw_turn (seq 0 tw_size) mt.

(** The last lines of [genrand_uint32]. *)
Definition temper (y0 : Z) : Z :=
  let y1 := Z.lxor y0 (Z.shiftr y0 11) in
  let y2 := Z.lxor y1 (Z.land (Z.shiftl y1 7) 0x9d2c5680) in
  let y3 := Z.lxor y2 (Z.land (Z.shiftl y2 15) 0xefc60000) in
  Z.lxor y3 (Z.shiftr y3 18).

(** [genrand_uint32] *)
Definition genrand (t : twister) : Z * twister :=
  let '(mkTwister mt i) := if (tw_size <=? tw_index t)%nat then mkTwister (tw_renew (tw_words t)) 0 else t in
  (temper (nth i mt 0), mkTwister mt (S i)).

Fixpoint genwords (n : nat) (t : twister) : list Z * twister :=
  match n with
  | O => ([], t)
  | S n' => let '(w, t1) := genrand t in let '(ws, t2) := genwords n' t1 in (w :: ws, t2)
  end.

(** [int.to_bytes(4, 'little')] of one word *)
Definition le_word (w : Z) : bytes := map (fun k => byte_of (Z.land (Z.shiftr w k) 255)) [0; 8; 16; 24].

(** [random.randbytes(4 * n)], i.e. [getrandbits(32 * n).to_bytes(4 * n, 'little')]: [n] words, the first one lowest. *)
Definition randbytes (n : nat) (t : twister) : bytes * twister :=
  let '(ws, t') := genwords n t in (flat_map le_word ws, t').

(** cryptosign.py:33-35 *)
Definition draw_cryptosign_challenge (t : twister) : string * twister :=
  let '(b, t') := randbytes 8 t in (generate_cryptosign_challenge b, t').
(** wampcra.py:55 *)
Definition draw_wampcra_nonce (t : twister) : string * twister :=
  let '(b, t') := randbytes 4 t in (decode_str (hexlify b), t').

(** idgen.py:6-7: [random.randint(1, 2 ** 53)] is [1 + _randbelow(2 ** 53)]; the bit length of 2^53 is 54, and [getrandbits(54)] takes
    two words, of the second one the upper 22 bits.  [n] bounds the number of attempts; [None]: none of them was below 2^53. *)
Fixpoint draw_session_id (n : nat) (t : twister) : option Z * twister :=
  match n with
  | O => (None, t)
  | S n' =>
      let '(lo, t1) := genrand t in
      let '(hi, t2) := genrand t1 in
      let r := Z.lor lo (Z.shiftl (Z.shiftr hi 10) 32) in
      if r <? 2 ^ 53 then (Some (1 + r), t2) else draw_session_id n' t2
  end.

(** [n] calls of [f], one after the other. *)
Fixpoint draws {A} (f : twister -> A * twister) (n : nat) (t : twister) : list A :=
  match n with O => [] | S n' => let '(x, t') := f t in x :: draws f n' t' end.
