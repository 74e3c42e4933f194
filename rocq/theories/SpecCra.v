(** * SpecCra: what a WAMP-CRA client has to answer (C117).  Definitions only. *)
From Coq Require Import String Ascii List ZArith Bool.
From Verif Require Import PyBase Messages SpecBase64 SpecSha2 SpecCodec SpecCrypto.
Import ListNotations.
Local Open Scope Z_scope.

(** [mac] is HMAC-SHA256 of [text] under [key]. *)
Definition is_hmac (key text mac : bytes) : Prop := all_bits mac = hmac_bits (all_bits key) (all_bits text).
(** [dk] is the PBKDF2 key of [n] octets. *)
Definition is_pbkdf2 (password salt : bytes) (iterations n : Z) (dk : bytes) : Prop :=
  all_bits dk = pbkdf2_bits (all_bits password) (all_bits salt) (Z.to_nat iterations) (Z.to_nat n).

(** The key a secret and the details of a CHALLENGE make: the secret, or, if there is a salt, the base64 text of the derived key. *)
Definition derived (salt : val) (secret : string) (iterations keylen : val) (key : bytes) : Prop :=
  exists s i n dk, salt = VStr s /\ unicode s /\ count iterations i /\ key_size keylen n /\
    is_pbkdf2 (chars secret) (chars s) i n dk /\ key = base64 dk.
Definition cra_key (extra : dict) (secret : string) (key : bytes) : Prop :=
  match sget "salt" extra with
  | None | Some VNone => key = chars secret
  | Some salt => exists iterations keylen, sget "iterations" extra = Some iterations /\ sget "keylen" extra = Some keylen /\
      derived salt secret iterations keylen key
  end.
Definition cra_answer (extra : dict) (secret : string) (signature : string) : Prop :=
  exists c key mac, sget "challenge" extra = Some (VStr c) /\ unicode c /\ cra_key extra secret key /\
    is_hmac key (chars c) mac /\ chars signature = base64 mac.
