(** * CodecOpen: cbor2, msgpack and json with the parts that Cbor.v, MsgPack.v and Json.v leave out as parameters.  Definitions only.

    cbor2 decodes most semantic tags to objects outside [val] (datetime, Decimal, UUID, CBORTag, ...), makes tuples and FrozenDicts
    of containers used as keys, and encodes such objects again; msgpack encodes ExtType and Timestamp objects, json
    objects of some subclasses and of none else.  What exactly they do there is a parameter, about which nothing is assumed;
    everything else is as in Cbor.v, MsgPack.v and Json.v. *)
From Coq Require Import String Ascii List ZArith Bool.
From Verif Require Import PyBase Rawsocket Encoding Utf8 CodecBase Serializer MsgPack Cbor Json.
Import ListNotations.
Local Open Scope Z_scope.

Record unknown := mkUnknown {
  opaque_enc : string -> bool -> res bytes;       (* the encoding of an object outside [val] *)
  tag_dec : Z -> val -> bytes -> res val;         (* tag, tagged value, octets after it (which tell where in the input it is) *)
  key_dec : val -> res val;                       (* the key that a list or dict is made to *)
  opaque_text : string -> bool -> res text;       (* the JSON text of an object outside [val] *)
  opaque_key : string -> bool -> res text         (* and of one that is a key *)
}.

Section Open.
Context (U : unknown).

(** As [cb_enc]. *)
Fixpoint cbo_enc (v : val) : res bytes :=
  match v with
  | VNone => Ok [byte_of 246]
  | VBool b => Ok [byte_of (if b then 245 else 244)]
  | VInt z => Ok (cb_int z)
  | VFloat f => Ok (cb_float f)
  | VStr s => let! x := strict_encode s in Ok (cb_head 3 (zlen x) ++ x)
  | VBytes b => Ok (cb_head 2 (zlen b) ++ b)
  | VList l =>
      cat (Ok (cb_head 4 (zlen l))) ((fix items l := match l with [] => Ok [] | x :: l' => cat (cbo_enc x) (items l') end) l)
  | VDict d =>
      cat (Ok (cb_head 5 (zlen d)))
        ((fix pairs d := match d with [] => Ok [] | (k, x) :: d' => cat (cbo_enc k) (cat (cbo_enc x) (pairs d')) end) d)
  | VOther n t => opaque_enc U n t
  end.

Definition cbo_key (k : val) : res val := if hashable k then Ok k else key_dec U k.
Section Items.
  Context (dec : bytes -> res (val * bytes)).
  (** As [cb_pairs] and [cb_pairs_break]. *)
  Fixpoint cbo_pairs (n : nat) (d : dict) (b : bytes) : res (dict * bytes) :=
    match n with
    | O => Ok (d, b)
    | S n' =>
        let! (k, r) := dec b in
        let! (x, r') := dec r in
        let! k' := cbo_key k in cbo_pairs n' (vset k' x d) r'
    end.
  Fixpoint cbo_pairs_break (fuel : nat) (d : dict) (b : bytes) : res (dict * bytes) :=
    match fuel with
    | O => Raise RecursionError
    | S f =>
        match b with
        | a :: r => if byte_Z a =? 255 then Ok (d, r)
                    else let! (k, r1) := dec b in
                         let! (x, r2) := dec r1 in
                         let! k' := cbo_key k in cbo_pairs_break f (vset k' x d) r2
        | [] => Raise (CodecError "premature end of stream")
        end
    end.
End Items.

(** As [cb_dec]. *)
Fixpoint cbo_dec (fuel : nat) (b : bytes) : res (val * bytes) :=
  match fuel with
  | O => Raise RecursionError
  | S f =>
      match b with
      | [] => Raise (CodecError "premature end of stream")
      | a :: r =>
          let c := byte_Z a in
          let major := c / 32 in
          let sub := c mod 32 in
          if major =? 0 then let! (z, r') := cb_uint sub r in Ok (VInt z, r')
          else if major =? 1 then let! (z, r') := cb_uint sub r in Ok (VInt (- z - 1), r')
          else if major =? 2 then let! (x, r') := cb_string (S (length r)) 2 sub r in Ok (VBytes x, r')
          else if major =? 3 then
            let! (x, r') := cb_string (S (length r)) 3 sub r in
            if utf8_valid x then Ok (VStr (decode_str x), r') else Raise (CodecError "error decoding unicode string")
          else if major =? 4 then
            let! (n, r') := cb_len sub r in
            let! (l, r'') := match n with
                             | Some z => mp_items (cbo_dec f) (Z.to_nat z) r'
                             | None => cb_items_break (cbo_dec f) (S (length r)) r'
                             end in
            Ok (VList l, r'')
          else if major =? 5 then
            let! (n, r') := cb_len sub r in
            let! (d, r'') := match n with
                             | Some z => cbo_pairs (cbo_dec f) (Z.to_nat z) [] r'
                             | None => cbo_pairs_break (cbo_dec f) (S (length r)) [] r'
                             end in
            Ok (VDict d, r'')
          else if major =? 6 then
            let! (tag, r') := cb_uint sub r in
            if tag =? 2 then cb_big (cbo_dec f r') false
            else if tag =? 3 then cb_big (cbo_dec f r') true
            else let! (x, r'') := cbo_dec f r' in let! y := tag_dec U tag x r'' in Ok (y, r'')
          else cb_special sub r
      end
  end.
Definition cbo_loads (b : bytes) : res val := let! (v, _) := cbo_dec (S (length b)) b in Ok v.
Definition cbor_open : codec := mkCodec cbo_enc cbo_loads.

(** As [mp_pack].  (The decoder of MsgPack.v leaves nothing out.) *)
Fixpoint mpo_pack (nest_limit : Z) (v : val) : res bytes :=
  if nest_limit <? 0 then Raise (ValueError ["recursion limit exceeded."%string])
  else
    match v with
    | VNone => Ok [byte_of 192]
    | VBool b => Ok [byte_of (if b then 195 else 194)]
    | VInt z => mp_int z
    | VFloat f => Ok (byte_of 203 :: to_be 8 f)
    | VStr s => let! x := strict_encode s in cat (mp_str_head (zlen x)) (Ok x)
    | VBytes b => cat (mp_bin_head (zlen b)) (Ok b)
    | VList l =>
        cat (mp_array_head (zlen l))
          ((fix items l := match l with [] => Ok [] | x :: l' => cat (mpo_pack (nest_limit - 1) x) (items l') end) l)
    | VDict d =>
        cat (mp_map_head (zlen d))
          ((fix pairs d := match d with
                           | [] => Ok []
                           | (k, x) :: d' => cat (mpo_pack (nest_limit - 1) k) (cat (mpo_pack (nest_limit - 1) x) (pairs d'))
                           end) d)
    | VOther n t => opaque_enc U n t
    end.
Definition msgpack_open : codec := mkCodec (mpo_pack 511) mp_loads.

(** As [js_enc].  (The decoder of Json.v leaves nothing out.) *)
Definition jso_key (fl : floats) (k : val) : res text := match k with VOther n t => opaque_key U n t | _ => js_key fl k end.
Fixpoint jso_enc (fl : floats) (v : val) : res text :=
  match v with
  | VNone => Ok (codes "null")
  | VBool b => Ok (codes (if b then "true" else "false")%string)
  | VInt z => js_int z
  | VFloat f => Ok (js_float fl f)
  | VStr s => js_str s
  | VBytes _ => Raise (TypeError "Object of type bytes is not JSON serializable")
  | VList l =>
      cat_t (Ok [91])
        ((fix items (first : bool) l :=
            match l with
            | [] => Ok [93]
            | x :: l' => cat_t (Ok (if first then [] else [44; 32])) (cat_t (jso_enc fl x) (items false l'))
            end) true l)
  | VDict d =>
      cat_t (Ok [123])
        ((fix pairs (first : bool) d :=
            match d with
            | [] => Ok [125]
            | (k, x) :: d' =>
                cat_t (Ok (if first then [] else [44; 32]))
                  (cat_t (jso_key fl k) (cat_t (Ok [58; 32]) (cat_t (jso_enc fl x) (pairs false d'))))
            end) true d)
  | VOther n t => opaque_text U n t
  end.
Definition json_open (fl : floats) : codec := mkCodec (fun v => let! t := jso_enc fl v in Ok (map byte_of t)) (js_loads fl).
End Open.
