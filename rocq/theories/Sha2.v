(** * Sha2: SHA-256, SHA-512 (FIPS 180-4), HMAC (RFC 2104) and PBKDF2 (RFC 8018), which [hashlib] and [hmac] provide
    to auth/wampcra.py:42,71 and (SHA-512) libsodium to auth/cryptosign.py.  Definitions only.

    Third-party code: modelled from the standards, not from /repo; checked against published vectors in
    CryptoVectors.v. *)
From Coq Require Import String Ascii List ZArith NArith Bool.
From Verif Require Import PyBase Encoding Auth.
Import ListNotations.
Local Open Scope Z_scope.

(** Words are [Z] in [0 .. 2^bits - 1]; the six rotation triples of FIPS 180-4 section 4.1. *)
Record sha := mkSha {
  sh_bits : Z;
  sh_octets : nat;                  (* octets of a word *)
  sh_S0 : Z * Z * Z; sh_S1 : Z * Z * Z;      (* big sigmas: three rotations *)
  sh_s0 : Z * Z * Z; sh_s1 : Z * Z * Z;      (* small sigmas: two rotations and a shift *)
  sh_k : list Z; sh_h : list Z }.

Definition mask (h : sha) (x : Z) : Z := x mod 2 ^ sh_bits h.
Definition rotr (h : sha) (n x : Z) : Z := Z.lor (Z.shiftr x n) (mask h (Z.shiftl x (sh_bits h - n))).
Definition Sigma (h : sha) (r : Z * Z * Z) (x : Z) : Z :=
  let '(a, b, c) := r in Z.lxor (rotr h a x) (Z.lxor (rotr h b x) (rotr h c x)).
Definition sigma (h : sha) (r : Z * Z * Z) (x : Z) : Z :=
  let '(a, b, c) := r in Z.lxor (rotr h a x) (Z.lxor (rotr h b x) (Z.shiftr x c)).
Definition Ch (x y z : Z) : Z := Z.lxor z (Z.land x (Z.lxor y z)).
Definition Maj (x y z : Z) : Z := Z.lxor (Z.land x y) (Z.lxor (Z.land x z) (Z.land y z)).

(** Big-endian words and octets. *)
Definition of_octets (l : bytes) : Z := fold_left (fun acc a => 256 * acc + Z.of_N (N_of_ascii a)) l 0.
Fixpoint to_octets (n : nat) (x : Z) : bytes :=
  match n with O => [] | S n' => to_octets n' (x / 256) ++ [byte_of (x mod 256)] end.
(** Consecutive pieces of [k] elements. *)
Fixpoint pieces {A} (fuel k : nat) (l : list A) : list (list A) :=
  match fuel, l with
  | O, _ | _, [] => []
  | S f, _ => firstn k l :: pieces f k (skipn k l)
  end.

(** FIPS 180-4 section 5.1: append 1, zeros, and the length in bits, to a multiple of 16 words. *)
Definition padding (h : sha) (len : nat) : bytes :=
  let block := Z.of_nat (16 * sh_octets h) in
  let field := (2 * sh_octets h)%nat in
  byte_of 128 :: repeat zero (Z.to_nat ((- (Z.of_nat len + 1 + Z.of_nat field)) mod block))
  ++ to_octets field (8 * Z.of_nat len).

Definition state := (Z * Z * Z * Z * Z * Z * Z * Z)%type.
Definition sha_round (h : sha) (st : state) (k w : Z) : state :=
  let '(a, b, c, d, e, f, g, x) := st in
  let t1 := x + Sigma h (sh_S1 h) e + Ch e f g + k + w in
  let t2 := Sigma h (sh_S0 h) a + Maj a b c in
  (mask h (t1 + t2), a, b, c, mask h (d + t1), e, f, g).
(** One round per constant; [win] holds the next 16 words of the message schedule. *)
Fixpoint sha_rounds (h : sha) (ks win : list Z) (st : state) : state :=
  match ks, win with
  | k :: ks', w0 :: rest =>
      let new := mask h (sigma h (sh_s1 h) (nth 13 rest 0) + nth 8 rest 0 + sigma h (sh_s0 h) (nth 0 rest 0) + w0) in
      sha_rounds h ks' (rest ++ [new]) (sha_round h st k w0)
  | _, _ => st
  end.
Definition sha_block (h : sha) (st : state) (block : bytes) : state :=
  let '(a, b, c, d, e, f, g, x) := st in
  let words := map of_octets (pieces 16 (sh_octets h) block) in
  let '(a', b', c', d', e', f', g', x') := sha_rounds h (sh_k h) words st in
  (mask h (a + a'), mask h (b + b'), mask h (c + c'), mask h (d + d'),
   mask h (e + e'), mask h (f + f'), mask h (g + g'), mask h (x + x')).
Definition sha_start (h : sha) : state :=
  let v i := nth i (sh_h h) 0 in (v 0%nat, v 1%nat, v 2%nat, v 3%nat, v 4%nat, v 5%nat, v 6%nat, v 7%nat).
Definition digest (h : sha) (m : bytes) : bytes :=
  let padded := m ++ padding h (length m) in
  let '(a, b, c, d, e, f, g, x) :=
    fold_left (sha_block h) (pieces (S (length m)) (16 * sh_octets h) padded) (sha_start h) in
  flat_map (to_octets (sh_octets h)) [a; b; c; d; e; f; g; x].

Definition SHA256 : sha := mkSha 32 4 (2, 13, 22) (6, 11, 25) (7, 18, 3) (17, 19, 10)
  [1116352408; 1899447441; 3049323471; 3921009573; 961987163; 1508970993; 2453635748; 2870763221; 3624381080;
   310598401; 607225278; 1426881987; 1925078388; 2162078206; 2614888103; 3248222580; 3835390401; 4022224774;
   264347078; 604807628; 770255983; 1249150122; 1555081692; 1996064986; 2554220882; 2821834349; 2952996808;
   3210313671; 3336571891; 3584528711; 113926993; 338241895; 666307205; 773529912; 1294757372; 1396182291;
   1695183700; 1986661051; 2177026350; 2456956037; 2730485921; 2820302411; 3259730800; 3345764771; 3516065817;
   3600352804; 4094571909; 275423344; 430227734; 506948616; 659060556; 883997877; 958139571; 1322822218;
   1537002063; 1747873779; 1955562222; 2024104815; 2227730452; 2361852424; 2428436474; 2756734187; 3204031479;
   3329325298]
  [1779033703; 3144134277; 1013904242; 2773480762; 1359893119; 2600822924; 528734635; 1541459225].
Definition SHA512 : sha := mkSha 64 8 (28, 34, 39) (14, 18, 41) (1, 8, 7) (19, 61, 6)
  [4794697086780616226; 8158064640168781261; 13096744586834688815; 16840607885511220156; 4131703408338449720;
   6480981068601479193; 10538285296894168987; 12329834152419229976; 15566598209576043074; 1334009975649890238;
   2608012711638119052; 6128411473006802146; 8268148722764581231; 9286055187155687089; 11230858885718282805;
   13951009754708518548; 16472876342353939154; 17275323862435702243; 1135362057144423861; 2597628984639134821;
   3308224258029322869; 5365058923640841347; 6679025012923562964; 8573033837759648693; 10970295158949994411;
   12119686244451234320; 12683024718118986047; 13788192230050041572; 14330467153632333762; 15395433587784984357;
   489312712824947311; 1452737877330783856; 2861767655752347644; 3322285676063803686; 5560940570517711597;
   5996557281743188959; 7280758554555802590; 8532644243296465576; 9350256976987008742; 10552545826968843579;
   11727347734174303076; 12113106623233404929; 14000437183269869457; 14369950271660146224; 15101387698204529176;
   15463397548674623760; 17586052441742319658; 1182934255886127544; 1847814050463011016; 2177327727835720531;
   2830643537854262169; 3796741975233480872; 4115178125766777443; 5681478168544905931; 6601373596472566643;
   7507060721942968483; 8399075790359081724; 8693463985226723168; 9568029438360202098; 10144078919501101548;
   10430055236837252648; 11840083180663258601; 13761210420658862357; 14299343276471374635; 14566680578165727644;
   15097957966210449927; 16922976911328602910; 17689382322260857208; 500013540394364858; 748580250866718886;
   1242879168328830382; 1977374033974150939; 2944078676154940804; 3659926193048069267; 4368137639120453308;
   4836135668995329356; 5532061633213252278; 6448918945643986474; 6902733635092675308; 7801388544844847127]
  [7640891576956012808; 13503953896175478587; 4354685564936845355; 11912009170470909681; 5840696475078001361;
   11170449401992604703; 2270897969802886507; 6620516959819538809].

Definition xor_octet (a b : ascii) : ascii := byte_of (Z.lxor (Z.of_N (N_of_ascii a)) (Z.of_N (N_of_ascii b))).
Definition xor_octets (a b : bytes) : bytes := map (fun '(x, y) => xor_octet x y) (combine a b).

(** RFC 2104 with a block of 64 octets. *)
Definition hmac (key m : bytes) : bytes :=
  let k0 := if (64 <? length key)%nat then digest SHA256 key else key in
  let k := k0 ++ repeat zero (64 - length k0) in
  digest SHA256 (xor_octets k (repeat (byte_of 92) 64) ++ digest SHA256 (xor_octets k (repeat (byte_of 54) 64) ++ m)).

(** RFC 8018 section 5.2: one block of derived key. *)
Definition pbkdf2_block (password salt : bytes) (iterations : Z) (i : nat) : bytes :=
  let u1 := hmac password (salt ++ to_octets 4 (Z.of_nat i)) in
  snd (N.iter (Z.to_N (iterations - 1))
         (fun '(u, t) => let u' := hmac password u in (u', xor_octets t u')) (u1, u1)).
Definition pbkdf2_bytes (password salt : bytes) (iterations dklen : Z) : bytes :=
  firstn (Z.to_nat dklen)
    (flat_map (pbkdf2_block password salt iterations) (seq 1 (Z.to_nat ((dklen + 31) / 32)))).

(** CPython's [hashlib.pbkdf2_hmac("sha256", password, salt, iterations, dklen)] on any objects for the last two
    (Modules/_hashopenssl.c): both are converted with [PyLong_AsLong], so a bool counts as an int. *)
Definition as_long (v : val) : res Z :=
  match as_int v with
  | None => Raise (TypeError "object cannot be interpreted as an integer")
  | Some i => if (- 2 ^ 63 <=? pyint_Z i) && (pyint_Z i <? 2 ^ 63) then Ok (pyint_Z i)
              else Raise (OverflowError "Python int too large to convert to C long")
  end.
Definition INT_MAX : Z := 2 ^ 31 - 1.
Definition hashlib_pbkdf2 (password salt : bytes) (iterations dklen : val) : res bytes :=
  let! it := as_long iterations in
  if it <? 1 then Raise (ValueError ["iteration value must be greater than 0."%string])
  else if INT_MAX <? it then Raise (OverflowError "iteration value is too great.")
  else
    let! dk := match dklen with VNone => Ok 32 | _ => as_long dklen end in
    if dk <? 1 then Raise (ValueError ["key length must be greater than 0."%string])
    else if INT_MAX <? dk then Raise (OverflowError "key length is too great.")
    else Ok (pbkdf2_bytes password salt it dk).
