# Formal model of wampproto-python in Rocq (Coq 8.16.1)

## Approach

Shallow embedding: each Python function becomes a total Gallina function. Exceptions are values
(`res A := Ok a | Raise e`); stateful methods are `state -> state * res out`, so mutations made *before* a
`raise` are kept, as in Python. Dicts are insertion-ordered association lists. Shared mutable objects
(`Subscription`, `Registration`, reachable through two dicts) live in an explicit heap. Third-party calls
(HMAC, Ed25519, PBKDF2, `random`, the user's authenticator) are universally quantified parameters of the theorems;
whatever is assumed about them is a visible hypothesis of the theorem that uses it.

Files (`rocq/theories`): `Py*.v` value model and library; `<Module>.v` model of one repo module (no proofs);
`<Module>Facts.v` lemmas; `Spec*.v` small independent specifications; `Props*.v` only property theorems, each
closed by `exact`, followed by `Print Assumptions`.

## Plan per property

| Id | Modelled how | Proof |
|----|--------------|-------|
| C01-C09 | `val` (Python values), 24 message records, `Fields`, every `validate_*`, `validate_message`, `parse`, `marshal`, `to_message` | case analysis on class, list induction; independent schema in `SpecSchema.v` |
| C10 | serializers over an abstract codec, then concrete MsgPack / CBOR / JSON codec models | induction on nested values |
| C11-C14 | `payload.py` line by line | case analysis |
| C15-C19 | `rawsocket.py` with `Z` shifts and masks | bit lemmas, `lia`; C19 by list induction |
| C20 | `idgen.py` | closed form by induction |
| C21-C29 | `session.py` as a transition function | refinement to history predicates (`SpecSession.v`) by induction over histories |
| C30-C33 | `joiner.py` | invariant over histories |
| C34-C37, C40-C42, C45-C46 | `acceptor.py`; authenticator and randomness are per-step oracles | invariants over histories of (oracle, message) |
| C38-C39 | base64 / hex modelled concretely, HMAC and Ed25519 abstract | induction on byte groups |
| C43-C44, C72 | composition of joiner and acceptor through bytes | symbolic execution for all parameters |
| C47-C54 | `broker.py` with heap | refinement to a list of (session, topic) pairs (`SpecBroker.v`) |
| C55-C68 | `dealer.py` with heap | refinement to a history-based specification (`SpecDealer.v`) |
| C69, C77-C80 | sessions + broker + dealer + FIFO links (`Network.v`, `SpecNetwork.v`) | global invariant over all schedules, liveness by a conservation argument |
| C70-C71, C73 | `auth/*.py` client side | case analysis |
| C74-C76 | further acceptor and dealer histories | invariants |
| C81-C85 | concrete MsgPack, CBOR and JSON codecs (`MsgPack.v`, `Cbor.v`, `Json.v`, `Float.v`, `Utf8.v`), domains in `SpecCodec.v` | induction on nested values, prefix/extension lemmas; shortest float repr by rational arithmetic |
| C86-C88 | `HandshakeCodec.v`, `StreamFacts.v` (handshakes and streams over the concrete codecs), data in `SpecE2E.v` | injectivity of the challenge text through JSON; frames + codecs |
| C89-C94 | remaining public helpers (`Helpers.v`), vocabulary in `SpecHelpers.v` | case analysis; fixed-width digits compare like numbers; heap of dicts |
| C95-C99 | the same network with byte links and a serializer per client (`ByteNetwork.v`, `SpecByteNetwork.v`); origin of deliveries (`SpecNetwork.v`) | the router keeps messages portable; step-by-step simulation of the object network, then transfer of C69-C79; provenance invariant |
| C80 (partial), C100-C102 | the object network; `holding`, `accepts`, `replies` in `SpecNetwork.v` | links drain in order (`NetworkFlow.v`); what a client holds the router knows; pending invocations survive until answered (`NetworkDelivery.v`); id counter strictly increases (`NetworkOnce.v`) |
| C106-C107 | the object network; `history`, `precedes`, `gives_rise` in `SpecOrder.v` | every message on a link carries the index of the action behind it; indices grow along links (`NetworkOrder.v`) |
| C108 | the byte network; `SpecByteFlow.v` | simulation by the object network (C95) |
| C111, C112 | limits as parameters of `Json.v` and `Cbor.v`, `JsonBytes.v`, encodings in `SpecJsonBytes.v` and `SpecJsonText.v` | more fuel gives the same result; first two octets of an accepted text |
| C113 | the object network; `disciplined` in `SpecNetwork.v` | the invariants of C69-C110 relative to a set of sessions that keep to the rules (`Gd` in `NetworkInv.v` and its successors) |
| C114 | the byte network with `HPut` (`HostileNetwork.v`); `SpecHostile.v` | `HostileSim.v`: every schedule is simulated by one of the object network in which the hostile clients use `APut` and messages lost for want of an encoding are delivered to nobody; then C113 |
| C115 | the byte network with `HPut`; `SpecHostileRest.v` | `HostileRest.v`: the weight of the items left decreases with every step; that an item causes at most two messages per client comes from the broker and dealer invariants through `hsim_run`; then C114 |
| C116 | the byte network with `HPut`; `SpecHold.v`, `SpecHostileHold.v` | `HostileHold.v`: C110 for one client through the simulation of C114 |
| C109 | the object network; `busy`, `at_rest` in `SpecRest.v` | every step lowers a weight: a routed message makes at most two per client (`NetworkRest.v`) |
| C110 | the object network; `held` in `SpecHold.v` | invariant: what a session's sets contain was received and not ended (`NetworkHold.v`), with C69/C77 |
| C103 | `sanity_check_object`, `parse_object` (`Helpers.v`) | reduction to the schema theorems of C01-C05 |
| C38, C39 (texts), C117 | the model of C38/C104; `SpecBase64.v` (hex and base64 texts), `SpecSha2.v` (FIPS 180-4, RFC 2104, RFC 8018 on bit strings, constants from roots of primes), `SpecCra.v` | `Base64Facts.v`; `Sha2Facts.v`: the sliding window of the model is the message schedule, octets are groups of eight bits, words stay below 2^w |
| C118-C120 | `Ed25519.v` (extended coordinates, partial reduction); `SpecEd25519.v` (RFC 8032 on affine points, relational) | `PrimeFacts.v` (Pocklington certificates of both moduli), `FieldFacts.v`, `EdwardsFacts.v` (completeness, associativity of the group law over any field), `Ed25519Facts.v`, `SignatureFacts.v` (encodings, order of the base point, when a signature verifies), `Rfc8032Facts.v`, `CryptosignFacts.v` |
| C121-C123 | `SpecFormat.v` (UTF-8, IEEE 754, dicts), `SpecCbor.v` (RFC 8949), `SpecMsgPack.v`, `SpecJson.v` (RFC 8259), relations between values and octets that use nothing of the decoders | `FormatFacts.v`, `CborFormat.v`, `MsgPackFormat.v`, `NearestFacts.v` (rounding), `JsonFormat.v`, `FormatMessages.v` |
| C124 | `Serializer.v`; `SpecPayload.v` (length and indexing of Python values, payloads) | `PayloadFacts.v` |
| C125 | `Codecs.v`, `Session.v`, `Joiner.v`, `Acceptor.v`, `HostileNetwork.v`; `SpecSpelling.v` (spellings of a value) | `SpellingFacts.v` |
| C126 | `Codecs.v`, `Serializer.v`; `SpecWeight.v` (size of a value) | `WeightFacts.v` |
| C127 | `Float.v`, `Codecs.v`; `SpecRepr.v` (numerals with the fewest digits) | `ReprFacts.v` |
| C128 | `HostileNetwork.v`, `Codecs.v`; `SpecWeight.v` | `SizeFacts.v`, `SizeNetwork.v` |
| C129 | `CodecOpen.v`: the serializers with what they do outside the data model as a parameter | `CodecOpenFacts.v` (agreement where the closed model says what happens), `HeaderFacts.v` |
| C130 | `SpecRejected.v`: two acceptors that no continuation tells apart | `RejectedFacts.v`: bisimulation from the invariant of `AcceptorFacts.v` |
| C131 | `SpecRename.v`: renamings and what they do to calls and answers | `RenameFacts.v`: the renamed router state |
| C132 | `SpecRouter.v`: reference broker and dealer | `RouterFacts.v`: they agree with the histories of C11-C30 |
| C133-C134 | `Random.v`: CPython's Mersenne twister, `randbytes`, `randint`; `SpecRandom.v`: what an observer computes | `RandomFacts.v`: tempering undone bit by bit, renewal in place as a sliding window |
| C135 | `SpecKeys.v`: the string that stands for a key | `KeysFacts.v` |
| C136 | `SpecAlike.v`: the shape of a message, renaming of ids per sort | `AlikeFacts.v`: the renamed state is the state of the renamed history |
| C137 | `SpecReorder.v`: which request a message is about, reordering, interleavings | `ReorderFacts.v`: a send and an unrelated arrival commute on the state |
| C138 | `TextLimit.v`: the validators with the limit on the text of an int | `TextLimitFacts.v`: each validator agrees or fails where an error is reported |
| C104-C105 | SHA-2, HMAC, PBKDF2, Ed25519 written from the standards (`Sha2.v`, `Ed25519.v`), vocabulary in `SpecCrypto.v` | lengths by induction; zero-padding of HMAC keys |

Properties that the code violates get a `..._refuted` theorem with a concrete reachable witness and a
`..._partial` theorem stating what does hold.

## Trusted base

1. Coq's kernel (8.16.1) and, for `vm_compute` in examples and witnesses, its bytecode machine. No plugin, no extraction,
   no `native_compute`.
2. Axioms: **none**. Each property theorem in `Props*.v` is followed by `Print Assumptions`, and every one prints
   `Closed under the global context`. No standard-library axiom is used, no library besides the standard library is
   imported. `coqchk` lists the axioms of `Coq.ssr.ssrunder` because `lia`'s plugin files load ssreflect's; no theorem
   depends on them.
3. Parameters are ordinary quantified variables of the theorems that use them, and what is assumed about them is a
   visible premise: HMAC-SHA256, PBKDF2, Ed25519 (`crypto` record; C39, C40, C43 assume that a generated signature
   verifies), `random` (modelled in `Random.v` for C133-C134), the clock, the text made by `json.dumps` for the WAMP-CRA challenge, the user's
   authenticator and client authenticator, and, for C10/C11/C29/C43 in their general form, a codec that round-trips the
   messages involved. C10_json, C10_msgpack, C10_cbor, C11_python, C43_python_*, C81-C85 and C87 use the concrete codecs and have no codec
   parameter.
4. That the model says what the Python says. Every definition cites the lines it models.

### What is modelled

| Code | Model | Left out or simplified |
|------|-------|------------------------|
| `messages/*.py` (24 classes), `messages/util.py`, `validation_spec.py`, `exceptions.py` | `Messages.v`, `Validate.v`, `Parse.v` | Interface classes, property getters and the constructors that take a Fields object (one-line delegation). The options getter writes into the dict it returns: `Messages.v` returns the written dict, `Helpers.v` (C94) has the write as an effect on a heap. Error texts with an int of more than 4300 digits (possible with CBOR) are not limited here as CPython's are; `TextLimit.v` has the limit and C138 says what it changes |
| `serializers/serializer.py`, `json.py`, `msgpack.py`, `cbor.py` | `Serializer.v` (over a codec record), `Codecs.v` | |
| the third-party `json`, `msgpack`, `cbor2` behind them | `Json.v`, `JsonBytes.v`, `Float.v`, `MsgPack.v`, `Cbor.v`, `Utf8.v` | written from documentation and knowledge of the libraries, not from /repo. MsgPack: ext types decode to an opaque value. CBOR: tags other than bignums and container keys are `ModelGap`; `CodecOpen.v` makes them, and the encoding of objects of other classes in all three formats, a parameter about which nothing is assumed (C81, C129, and every theorem with the premise `is_python_codec`). `RecursionError` on extreme nesting is modelled for the JSON and CBOR decoders only where a limit is mentioned (C111, C81_recursion_refuted), for their encoders not at all |
| `serializers/payload.py` | `Serializer.v` | |
| `transports/rawsocket.py`, `idgen.py` | `Rawsocket.v`, `IdGen.v` | |
| `session.py` | `Session.v` | |
| `joiner.py`, `acceptor.py`, `auth/*.py` | `Joiner.v`, `Acceptor.v`, `Auth.v`, `Encoding.v` (base64, hex) | authenticators return `Response` objects or raise; what else they could return is not modelled |
| the third-party `hashlib`, `hmac`, PyNaCl | `Sha2.v`, `Ed25519.v` (C104, C105, C117-C120 and tests) | written from the standards and proved equal to them as written down in `SpecSha2.v` and `SpecEd25519.v`. `ed25519_correct` (every signature verifies) remains a premise of the theorems about an arbitrary `crypto`; for the Ed25519 of the model C119 says exactly when it holds |
| `broker.py`, `dealer.py` | `Broker.v`, `Dealer.v` | |
| `types.py`, `uris.py`, `exception.py`, `util.py:29-83`, `utcnow`, `generate_cryptosign_keypair` | `Helpers.v`; records and constants in the files above | `str()` is a parameter of C91; years of four digits |
| the wiring of sessions, broker and dealer (not in /repo: users write it) | `Network.v`, `ByteNetwork.v`, `HostileNetwork.v` | ours: links are FIFO, carry message objects (`Network.v`) or serialized messages (`ByteNetwork.v`), a client sends through its WAMPSession (`ASend`) or past it (`APut`: any message; `HPut`: any bytes), and the router drops a message whose processing raises, bytes it cannot deserialize and messages the recipient's serializer cannot encode (in the model this includes relayed values with no model encoding, such as MessagePack ext types and CBOR tags other than bignums) |

Value model: `None, bool, int, float (64 bits), str, bytes, list, dict` and an opaque `VOther` for any other object.
`int` is unbounded. `str` is represented by its octets in generalised UTF-8 (the `surrogatepass` error handler), so
strings with lone surrogates are included; strict encoding of such a string raises ValueError (UnicodeEncodeError). The
secrets a user configures locally are assumed to be encodable (`Auth.v`).
Dict keys are compared as Python does (`1 == 1.0 == True`). Identity of objects matters only in broker and dealer and is
modelled by a heap there.

### How the model was checked against reality

* The codec models are exercised on the published test vectors (RFC 8949 appendix A, the MessagePack format tables).
* The model of `random` was compared with CPython's own: 80 challenges, nonces and session ids from one seeded state, and the forecast
  of the 79th challenge.
* The JSON model was compared with CPython's own `json` on several thousand random values, mutated texts and byte strings
  in various encodings, floats and lone surrogates included (scratch scripts outside /verif), without differences.
* The project's own unit tests are replayed on the model: `RepoTests.v` (tests/messages and serializers/test_serializer.py,
  generated from the Python sources by `tools/repotests.py`), `RepoTestsState.v` (broker, dealer, session, util and
  serializer tests), `CryptoVectors.v` and `Ed25519Vectors.v` (tests/auth, joiner_test.py). The interoperability tests
  need an external program and are not replayed.
* The concrete primitives are checked against FIPS 180-4, RFC 4231, RFC 7914 and RFC 8032 vectors and CPython's `hashlib`.
* The theorems were run against wrong programs: see `seeded/LOG.jsonl`.

## Findings: properties the code violates

Each has a `..._refuted` theorem with a reachable witness and a `..._partial` theorem with what remains true; the notes in
`MANIFEST.json` describe them. In short: ABORT loses args/kwargs (C08); `True` passes as an id (C09); binary payloads are
never sent (C14); a 2^24 byte frame has length field 0 (C16); one reserved handshake octet may be non-zero (C18);
a rejected UNSUBSCRIBED/UNREGISTERED or a failed send still changes the session (C26); progressive results end the call
(C27); ABORT does not stop the joiner (C33) nor failed tickets the acceptor (C41); a cryptosign response can be replayed
(C40); malformed signatures raise out of the acceptor (C42); an ABORT from the client makes `receive` raise (C46); salted
WAMP-CRA cannot succeed (C72); authenticators write into the caller's dict (C73); ids collide after 2^53 (C49);
`exclude_me` is ignored (C54); YIELD can raise KeyError, can come from anyone, and can be routed to sessions that left
(C57, C63-C67, C75, C76); network-wide consequences (C78, C80); deep nesting raises RecursionError (C81); CBOR ignores trailing bytes (C82); MsgPack accepts what it
cannot send and JSON joins two raw surrogates (C84); serializers cannot be bridged in general (C85); a session id 0 passes the helper (C89); option dicts are written to (C94); an acknowledged publication can be lost between serializers (C98); a secret followed by a NUL character logs in too (C105).
