(** * Auth: wampproto/auth/{auth,anonymous,ticket,wampcra,cryptosign}.py.  Definitions only.

    Cryptographic primitives, random numbers and the clock are parameters; hex, base64 and everything written in
    /repo is modelled.  Texts from the peer (challenge, salt) may hold surrogates, which [str.encode] refuses; the secrets and
    challenges of the local application are taken to hold none. *)
From Coq Require Import String Ascii List ZArith Bool.
From Verif Require Import PyBase Messages Encoding Utf8.
Import ListNotations.
Local Open Scope Z_scope.

(** Third-party primitives. *)
Record crypto := mkCrypto {
  hmac_sha256 : bytes -> bytes -> bytes;                    (* key, message: hmac.new(k, m, sha256).digest() *)
  pbkdf2 : bytes -> bytes -> val -> val -> res bytes;       (* password, salt, iterations, dklen; total on objects *)
  ed_public : bytes -> bytes;                               (* seed: SigningKey(seed).verify_key *)
  ed_sign : bytes -> bytes -> bytes;                        (* seed, message: detached signature *)
  ed_verify : bytes -> bytes -> bytes -> bool }.            (* public key, message, signature *)

(** ** Client side *)

(** auth.py:4-24 [IClientAuthenticator]: fixed attributes plus the overridable method. *)
Record client_auth := mkClient {
  cl_method : string; cl_authid : string; cl_extra : dict; cl_authenticate : challenge -> res authenticate }.

Definition extra_or_empty (o : option dict) : dict := match o with Some d => d | None => [] end.

(** anonymous.py:4-11 *)
Definition anonymous_client (authid : string) (extra : option dict) : client_auth :=
  mkClient "anonymous" authid (extra_or_empty extra) (fun _ => Raise NotImplementedError).

(** ticket.py:5-13 *)
Definition ticket_client (authid ticket : string) (extra : option dict) : client_auth :=
  mkClient "ticket" authid (extra_or_empty extra) (fun _ => Ok (mkAuthenticate ticket [])).

(** wampcra.py:70-72 *)
Definition sign_wampcra_challenge (cr : crypto) (challenge : string) (key : bytes) : string :=
  decode_str (b64encode (hmac_sha256 cr key (encode_str challenge))).

(** wampcra.py:34-46 *)
Definition derive_cra_key (cr : crypto) (salt : val) (secret : string) (iterations key_length : val) : res bytes :=
  match salt with
  | VStr s =>
      let! salt_bytes := strict_encode s in
      if py_eq_int iterations 0 then
        Raise (ValueError ["iterations string required in extra & should be greater than 0"%string])
      else if py_eq_int key_length 0 then
        Raise (ValueError ["keylen string missing in extra & should be greater than 0"%string])
      else
        let! derived_key := pbkdf2 cr (encode_str secret) salt_bytes iterations key_length in
        Ok (b64encode derived_key)
  | _ => Raise (AttributeError "object has no attribute 'encode'")
  end.

(** wampcra.py:20-31 *)
Definition wampcra_authenticate (cr : crypto) (secret : string) (ch : challenge) : res authenticate :=
  let salt := sget_default "salt" VNone (ch_extra ch) in
  let iterations := sget_default "iterations" (VInt 0) (ch_extra ch) in
  let key_length := sget_default "keylen" (VInt 0) (ch_extra ch) in
  let! raw_secret :=
    match salt with
    | VNone => Ok (encode_str secret)
    | _ => derive_cra_key cr salt secret iterations key_length
    end in
  match sget "challenge" (ch_extra ch) with
  | None => Raise KeyError
  | Some (VStr c) => let! _ := strict_encode c in Ok (mkAuthenticate (sign_wampcra_challenge cr c raw_secret) [])
  | Some _ => Raise (AttributeError "object has no attribute 'encode'")
  end.

(** wampcra.py:13-18 *)
Definition wampcra_client (cr : crypto) (authid secret : string) (extra : option dict) : client_auth :=
  mkClient "wampcra" authid (extra_or_empty extra) (wampcra_authenticate cr secret).

(** cryptosign.py:38-40 *)
Definition sign_cryptosign_challenge (cr : crypto) (challenge : val) (seed : bytes) : res string :=
  let! raw_challenge := unhexlify challenge in
  match challenge with
  | VStr c => Ok (decode_str (hexlify (ed_sign cr seed raw_challenge)) ++ c)%string
  | _ => Raise (TypeError "can only concatenate str")
  end.

(** cryptosign.py:23-30 *)
Definition cryptosign_authenticate (cr : crypto) (seed : bytes) (ch : challenge) : res authenticate :=
  match sget_default "challenge" VNone (ch_extra ch) with
  | VNone => Raise (ValueError ["challenge string missing in extra"%string])
  | challenge_hex =>
      let! signed := sign_cryptosign_challenge cr challenge_hex seed in
      Ok (mkAuthenticate signed [])
  end.

(** cryptosign.py:15-21.  [self._auth_extra] is the caller's dict object when one is passed, so the second component
    is what the caller's dict contains afterwards ([None] if no dict was passed). *)
Definition cryptosign_client (cr : crypto) (authid private_key : string) (extra : option dict)
  : res (client_auth * option dict) :=
  let! seed := unhexlify_str private_key in
  if (length seed =? 32)%nat then
    let e0 := extra_or_empty extra in
    let e := match sget "pubkey" e0 with
             | Some _ => e0
             | None => sset "pubkey" (VStr (decode_str (hexlify (ed_public cr seed)))) e0
             end in
    Ok (mkClient "cryptosign" authid e (cryptosign_authenticate cr seed), option_map (fun _ => e) extra)
  else Raise (ValueError ["The seed must be exactly 32 bytes long"%string]).

(** ** Server side *)

(** auth.py:27-83 *)
Inductive request :=
| AnonymousRequest (realm : string) (authid : option string) (extra : option dict)
| CryptoSignRequest (realm : string) (authid : option string) (extra : option dict) (public_key : val)
| WAMPCRARequest (realm : string) (authid : option string) (extra : option dict)
| TicketRequest (realm : string) (authid : option string) (extra : option dict) (ticket : string).

(** auth.py:86-127; [salted] carries salt, iterations, keylen of a WAMPCRASaltedResponse. *)
Inductive response :=
| PlainResponse (authid authrole : string)
| WAMPCRAResponse (authid authrole secret : string) (salted : option (string * Z * Z)).
Definition resp_authid r := match r with PlainResponse a _ => a | WAMPCRAResponse a _ _ _ => a end.
Definition resp_authrole r := match r with PlainResponse _ a => a | WAMPCRAResponse _ a _ _ => a end.

(** auth.py:117-119: the property returns [self.salt], i.e. itself. *)
Definition resp_salt (r : response) : res string := Raise RecursionError.

(** What a user's [IServerAuthenticator.authenticate] does on a request: return a response, or raise an exception,
    whose [args] we keep. *)
Inductive verdict := Accept (r : response) | Reject (args : list val).

(** cryptosign.py:33-35 *)
Definition generate_cryptosign_challenge (random : bytes) : string := decode_str (hexlify random).

(** wampcra.py:54-67; [now] is [utcnow()]; json.dumps is a parameter. *)
Definition wampcra_challenge_data (nonce : bytes) (now : string) (session_id : Z) (authid authrole provider : string)
  : dict :=
  [(VStr "nonce", VStr (decode_str (hexlify nonce))); (VStr "authprovider", VStr provider);
   (VStr "authid", VStr authid); (VStr "authrole", VStr authrole); (VStr "authmethod", VStr "wampcra");
   (VStr "session", VInt session_id); (VStr "timestamp", VStr now)].
Definition generate_wampcra_challenge (json_dumps : val -> res bytes) (nonce : bytes) (now : string)
    (session_id : Z) (authid authrole provider : string) : res string :=
  let! b := json_dumps (VDict (wampcra_challenge_data nonce now session_id authid authrole provider)) in
  Ok (decode_str b).

(** wampcra.py:75-82.  [sign] cannot raise; only b64decode of the peer's signature can. *)
Definition verify_wampcra_signature (cr : crypto) (signature challenge : string) (key : bytes) : res bool :=
  match b64decode_str signature with
  | Raise (BinasciiError _) => Ok false
  | Raise e => Raise e
  | Ok sig_bytes =>
      let! local := b64decode_str (sign_wampcra_challenge cr challenge key) in
      Ok (if list_eq_dec ascii_dec sig_bytes local then true else false)
  end.

(** cryptosign.py:43-50.  nacl's [VerifyKey] requires 32 bytes; [verify] splits off the first 64 bytes. *)
Definition verify_cryptosign_signature (cr : crypto) (signature : string) (public_key : bytes) : res bool :=
  if (length public_key =? 32)%nat then
    let! smessage := unhexlify_str signature in
    if (length smessage <? 64)%nat then Ok false       (* BadSignatureError, caught *)
    else Ok (ed_verify cr public_key (skipn 64 smessage) (firstn 64 smessage))
  else Raise (ValueError ["The key must be exactly 32 bytes long"%string]).
