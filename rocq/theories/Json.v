(** * Json: json.dumps and json.loads, as called by wampproto/serializers/json.py, payload.py and wampproto/auth/wampcra.py
    (no options).  Definitions only.

    Python's standard library, not part of /repo (Lib/json/encoder.py, decoder.py, scanner.py and Modules/_json.c).
    A [str] is represented by its octets ([str_points], so lone surrogates are possible); inside, texts are lists of code
    points.  The text of floats is a parameter ([floats]).  Not modelled ([ModelGap]): objects outside [val].  Also not
    modelled: the encoder's recursion limit (the decoder's is in [js_loads_within]), and the UTF-16/UTF-32/BOM detection of [json.loads] on bytes: the input is a [str], as
    wampproto/serializers/json.py:13 says. *)
From Coq Require Import String Ascii List ZArith Bool.
From Verif Require Import PyBase Rawsocket Encoding Utf8 CodecBase Serializer MsgPack.
Import ListNotations.
Local Open Scope Z_scope.

Definition text := list Z.
Definition codes (s : string) : text := map byte_Z (encode_str s).

(** [float.__repr__] of finite floats, and [float(s)] on numbers with a fraction or an exponent. *)
Record floats := mkFloats { float_repr : Z -> text; float_of : text -> Z }.

(** ** Encoder *)
Definition hex_digit (d : Z) : Z := if d <? 10 then 48 + d else 87 + d.
Definition u_escape (u : Z) : text :=
  [92; 117; hex_digit (u / 4096 mod 16); hex_digit (u / 256 mod 16); hex_digit (u / 16 mod 16); hex_digit (u mod 16)].
(** py_encode_basestring_ascii *)
Definition js_char (p : Z) : text :=
  if p =? 34 then [92; 34]
  else if p =? 92 then [92; 92]
  else if p =? 10 then [92; 110]
  else if p =? 13 then [92; 114]
  else if p =? 9 then [92; 116]
  else if p =? 12 then [92; 102]
  else if p =? 8 then [92; 98]
  else if (32 <=? p) && (p <=? 126) then [p]
  else if p <? 65536 then u_escape p
  else let n := p - 65536 in u_escape (55296 + n / 1024) ++ u_escape (56320 + n mod 1024).
Definition js_str (s : string) : res text :=
  match str_points (encode_str s) with
  | Some ps => Ok ([34] ++ flat_map js_char ps ++ [34])
  | None => Raise ModelGap
  end.

(** int.__repr__, limited to 4300 digits. *)
Definition MAX_DIGITS : Z := 4300.
Definition js_int (z : Z) : res text :=
  let s := codes (str_of_Z z) in
  if MAX_DIGITS <? zlen (codes (str_of_Z (Z.abs z))) then Raise (ValueError ["Exceeds the limit (4300 digits) for integer string conversion"%string])
  else Ok s.
(** floatstr *)
Definition js_float (fl : floats) (f : Z) : text :=
  if is_nan f then codes "NaN"
  else if f =? INF then codes "Infinity"
  else if f =? 2 ^ 63 + INF then codes "-Infinity"
  else float_repr fl f.

Definition cat_t (x y : res text) : res text := let! a := x in let! b := y in Ok (a ++ b).
Definition js_key (fl : floats) (k : val) : res text :=
  match k with
  | VStr s => js_str s
  | VFloat f => Ok ([34] ++ js_float fl f ++ [34])
  | VBool b => Ok ([34] ++ codes (if b then "true" else "false")%string ++ [34])
  | VNone => Ok ([34] ++ codes "null" ++ [34])
  | VInt z => let! t := js_int z in Ok ([34] ++ t ++ [34])
  | VOther _ _ => Raise ModelGap
  | _ => Raise (TypeError "keys must be str, int, float, bool or None")
  end.

(** _iterencode; [first] suppresses the separator. *)
Fixpoint js_enc (fl : floats) (v : val) : res text :=
  match v with
  | VNone => Ok (codes "null")
  | VBool b => Ok (codes (if b then "true" else "false")%string)
  | VInt z => js_int z
  | VFloat f => Ok (js_float fl f)
  | VStr s => js_str s
  | VBytes _ => Raise (TypeError "Object of type bytes is not JSON serializable")
  | VList l =>
      cat_t (Ok [91])
        ((fix items (first : bool) l :=
            match l with
            | [] => Ok [93]
            | x :: l' => cat_t (Ok (if first then [] else [44; 32])) (cat_t (js_enc fl x) (items false l'))
            end) true l)
  | VDict d =>
      cat_t (Ok [123])
        ((fix pairs (first : bool) d :=
            match d with
            | [] => Ok [125]
            | (k, x) :: d' =>
                cat_t (Ok (if first then [] else [44; 32]))
                  (cat_t (js_key fl k) (cat_t (Ok [58; 32]) (cat_t (js_enc fl x) (pairs false d'))))
            end) true d)
  | VOther _ _ => Raise ModelGap
  end.

Definition js_dumps (fl : floats) (v : val) : res bytes := let! t := js_enc fl v in Ok (map byte_of t).

(** ** Decoder *)
Definition is_ws (c : Z) : bool := (c =? 32) || (c =? 9) || (c =? 10) || (c =? 13).
Fixpoint skip_ws (t : text) : text := match t with c :: r => if is_ws c then skip_ws r else t | [] => [] end.

Definition js_error {A} (msg : string) : res A := Raise (ValueError [msg]).

Definition hex_value (c : Z) : option Z :=
  if (48 <=? c) && (c <=? 57) then Some (c - 48)
  else if (97 <=? c) && (c <=? 102) then Some (c - 87)
  else if (65 <=? c) && (c <=? 70) then Some (c - 55)
  else None.
Definition hex4 (a b c d : Z) : option Z :=
  match hex_value a, hex_value b, hex_value c, hex_value d with
  | Some a, Some b, Some c, Some d => Some (4096 * a + 256 * b + 16 * c + d)
  | _, _, _, _ => None
  end.
(** BACKSLASH *)
Definition unescape (e : Z) : option Z :=
  if e =? 34 then Some 34
  else if e =? 92 then Some 92
  else if e =? 47 then Some 47
  else if e =? 98 then Some 8
  else if e =? 102 then Some 12
  else if e =? 110 then Some 10
  else if e =? 114 then Some 13
  else if e =? 116 then Some 9
  else None.
Definition prepend (p : Z) (x : res (text * text)) : res (text * text) := let! (s, r) := x in Ok (p :: s, r).

(** scanstring (strict), after the opening quote. *)
Fixpoint js_string (t : text) : res (text * text) :=
  match t with
  | [] => js_error "Unterminated string"
  | c :: r =>
      if c =? 34 then Ok ([], r)
      else if c =? 92 then
        match r with
        | [] => js_error "Unterminated string"
        | e :: r1 =>
            if e =? 117 then
              match r1 with
              | h1 :: h2 :: h3 :: h4 :: r2 =>
                  match hex4 h1 h2 h3 h4 with
                  | None => js_error "Invalid \uXXXX escape"
                  | Some u =>
                      if is_high u then
                        match r2 with
                        | b :: w :: g1 :: g2 :: g3 :: g4 :: r3 =>
                            if (b =? 92) && (w =? 117) then
                              match hex4 g1 g2 g3 g4 with
                              | None => js_error "Invalid \uXXXX escape"
                              | Some v =>
                                  if is_low v then prepend (65536 + 1024 * (u - 55296) + (v - 56320)) (js_string r3)
                                  else prepend u (js_string r2)
                              end
                            else prepend u (js_string r2)
                        | _ => prepend u (js_string r2)
                        end
                      else prepend u (js_string r2)
                  end
              | _ => js_error "Invalid \uXXXX escape"
              end
            else match unescape e with
                 | Some p => prepend p (js_string r1)
                 | None => js_error "Invalid \escape"
                 end
        end
      else if c <? 32 then js_error "Invalid control character at"
      else prepend c (js_string r)
  end.

(** NUMBER_RE: the matched text, split into integer part and the rest, and the remaining input. *)
Definition is_digit (c : Z) : bool := (48 <=? c) && (c <=? 57).
Fixpoint span_digits (t : text) : text * text :=
  match t with
  | c :: r => if is_digit c then let (d, r') := span_digits r in (c :: d, r') else ([], t)
  | [] => ([], [])
  end.
Definition js_natural (t : text) : option (text * text) :=
  match t with
  | c :: r => if c =? 48 then Some ([48], r) else if is_digit c then Some (span_digits t) else None
  | [] => None
  end.
Definition js_sign (t : text) : text * text :=
  match t with c :: r => if c =? 45 then ([45], r) else ([], t) | [] => ([], []) end.
Definition js_frac (t : text) : text * text :=
  match t with
  | c :: r => if c =? 46 then match span_digits r with ([], _) => ([], t) | (d, r') => (46 :: d, r') end else ([], t)
  | [] => ([], [])
  end.
Definition js_exp (t : text) : text * text :=
  match t with
  | c :: r =>
      if (c =? 101) || (c =? 69) then
        let (s, r1) := match r with
                       | x :: r' => if (x =? 43) || (x =? 45) then ([x], r') else ([], r)
                       | [] => ([], [])
                       end in
        match span_digits r1 with ([], _) => ([], t) | (d, r2) => (c :: s ++ d, r2) end
      else ([], t)
  | [] => ([], [])
  end.
Record number := mkNumber { n_sign : text; n_int : text; n_rest : text }.
Definition js_number (t : text) : option (number * text) :=
  let (s, t1) := js_sign t in
  match js_natural t1 with
  | None => None
  | Some (i, t2) => let (f, t3) := js_frac t2 in let (e, t4) := js_exp t3 in Some (mkNumber s i (f ++ e), t4)
  end.
Definition digits_value (d : text) : Z := fold_left (fun acc c => 10 * acc + (c - 48)) d 0.
Definition number_value (fl : floats) (n : number) : res val :=
  match n_rest n with
  | [] =>
      if MAX_DIGITS <? zlen (n_int n) then js_error "Exceeds the limit (4300 digits) for integer string conversion"
      else let z := digits_value (n_int n) in Ok (VInt (match n_sign n with [] => z | _ => - z end))
  | _ => Ok (VFloat (float_of fl (n_sign n ++ n_int n ++ n_rest n)))
  end.

(** Literal words. *)
Fixpoint strip (p t : text) : option text :=
  match p, t with
  | [], _ => Some t
  | c :: p', x :: t' => if c =? x then strip p' t' else None
  | _, _ => None
  end.
Definition js_word (fl : floats) (t : text) : res (val * text) :=
  match strip (codes "null") t with Some r => Ok (VNone, r) | None =>
  match strip (codes "true") t with Some r => Ok (VBool true, r) | None =>
  match strip (codes "false") t with Some r => Ok (VBool false, r) | None =>
  match strip (codes "NaN") t with Some r => Ok (VFloat NAN, r) | None =>
  match strip (codes "Infinity") t with Some r => Ok (VFloat INF, r) | None =>
  match strip (codes "-Infinity") t with Some r => Ok (VFloat (2 ^ 63 + INF), r) | None =>
  match js_number t with
  | Some (n, r) => let! v := number_value fl n in Ok (v, r)
  | None => js_error "Expecting value"
  end end end end end end end.

Definition str_val (ps : text) : val := VStr (decode_str (utf8_encode ps)).

Section Items.
  Context (dec : text -> res (val * text)).
  (** JSONArray, at an element. *)
  Fixpoint js_elems (fuel : nat) (t : text) : res (list val * text) :=
    match fuel with
    | O => Raise RecursionError
    | S f =>
        let! (x, r) := dec t in
        match skip_ws r with
        | c :: r1 =>
            if c =? 93 then Ok ([x], r1)
            else if c =? 44 then let! (l, r2) := js_elems f (skip_ws r1) in Ok (x :: l, r2)
            else js_error "Expecting ',' delimiter"
        | [] => js_error "Expecting ',' delimiter"
        end
    end.
  (** JSONObject, at a key. *)
  Fixpoint js_members (fuel : nat) (d : dict) (t : text) : res (dict * text) :=
    match fuel with
    | O => Raise RecursionError
    | S f =>
        match t with
        | q :: r =>
            if q =? 34 then
              let! (k, r1) := js_string r in
              match skip_ws r1 with
              | c :: r2 =>
                  if c =? 58 then
                    let! (x, r3) := dec (skip_ws r2) in
                    let d' := vset (str_val k) x d in
                    match skip_ws r3 with
                    | e :: r4 =>
                        if e =? 125 then Ok (d', r4)
                        else if e =? 44 then js_members f d' (skip_ws r4)
                        else js_error "Expecting ',' delimiter"
                    | [] => js_error "Expecting ',' delimiter"
                    end
                  else js_error "Expecting ':' delimiter"
              | [] => js_error "Expecting ':' delimiter"
              end
            else js_error "Expecting property name enclosed in double quotes"
        | [] => js_error "Expecting property name enclosed in double quotes"
        end
    end.
End Items.

(** scan_once.  At [fuel] = S f, [f] more arrays and objects may be nested; a further one is a RecursionError
    (_Py_EnterRecursiveCall in Modules/_json.c). *)
Definition js_nest {A} (f : nat) (x : res A) : res A := match f with O => Raise RecursionError | S _ => x end.
Fixpoint js_dec (fl : floats) (fuel : nat) (t : text) : res (val * text) :=
  match fuel with
  | O => Raise RecursionError
  | S f =>
      match t with
      | [] => js_error "Expecting value"
      | c :: r =>
          if c =? 34 then let! (s, r') := js_string r in Ok (str_val s, r')
          else if c =? 91 then
            js_nest f
              match skip_ws r with
              | e :: r1 => if e =? 93 then Ok (VList [], r1)
                           else let! (l, r2) := js_elems (js_dec fl f) (S (length r)) (e :: r1) in Ok (VList l, r2)
              | [] => js_error "Expecting value"
              end
          else if c =? 123 then
            js_nest f
              match skip_ws r with
              | e :: r1 => if e =? 125 then Ok (VDict [], r1)
                           else let! (d, r2) := js_members (js_dec fl f) (S (length r)) [] (e :: r1) in Ok (VDict d, r2)
              | [] => js_error "Expecting property name enclosed in double quotes"
              end
          else js_word fl t
      end
  end.

(** JSONDecoder.decode on a [str], given by its octets, when [limit] nested containers are allowed. *)
Definition js_decode (fl : floats) (limit : nat) (t : text) : res val :=
  let! (v, r) := js_dec fl (S limit) (skip_ws t) in
  match skip_ws r with [] => Ok v | _ => js_error "Extra data" end.
Definition js_loads_within (fl : floats) (limit : nat) (b : bytes) : res val :=
  match str_points b with
  | None => Raise (ValueError ["invalid utf-8"%string])
  | Some t => js_decode fl limit t
  end.
(** Without a limit: there are at most as many containers as characters. *)
Definition js_loads (fl : floats) (b : bytes) : res val :=
  match str_points b with
  | None => Raise (ValueError ["invalid utf-8"%string])
  | Some t => js_decode fl (length t) t
  end.

Definition json (fl : floats) : codec := mkCodec (js_dumps fl) (js_loads fl).
