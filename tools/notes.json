{
 "C08": "False of the code: Abort.marshal drops args/kwargs (refuted with witness); details and reason survive.",
 "C09": "False of the code: True is accepted as an id (refuted with witness); partial: nothing else but ints in range and True.",
 "C14": "False of the code: payload bytes are never marshalled (refuted); partial: the serializer id survives.",
 "C16": "False of the code: length 2**24 (PROTOCOL_MAX_MSG_SIZE) is framed as length 0 (refuted); partial: every length below 2**24.",
 "C18": "False of the code: the reserved-octet test uses `and`, so one non-zero reserved octet is accepted (refuted); partial: everything else is rejected.",
 "C10": "For any codec that round-trips the message (C10_serializer...) and, without any hypothesis on the codec, for models of json, msgpack and cbor2 (C10_json, C10_msgpack, C10_cbor) with the exact domain of each format (SpecCodec.v).",
 "C26": "False of the code: a rejected UNREGISTERED/UNSUBSCRIBED consumes the request, and send_message records the request before a failing serialization (both refuted); partial: in all other cases the session is unchanged.",
 "C27": "False of the code: every RESULT ends the request, also a progressive one (refuted); partial: exactly the first RESULT is accepted.",
 "C73": "False of the code: the constructor writes pubkey into the caller's dict, so a second authenticator sharing it announces the first one's key (refuted); partial: a dict that already has pubkey is left alone.",
 "C33": "False of the code: ABORT leaves the joiner's state as it is, so a later WELCOME is accepted (refuted); partial: an ABORT that arrives when no WELCOME is awaited.",
 "C31": "If the authenticator raises, the exception propagates and the joiner still awaits a challenge.",
 "C40": "False of the code for cryptosign: the signed challenge is not compared with the one sent, so a recorded AUTHENTICATE is accepted in any later handshake (refuted for every correct Ed25519); partial: WAMP-CRA is bound to the challenge. See C86 for the pair of handshakes.",
 "C41": "False of the code: an ABORT sent because the authenticator raised does not set STATE_ABORTED; unlimited ticket guesses (refuted); partial: signature failures and the peer's ABORT are final.",
 "C42": "False of the code: non-hex cryptosign signatures or public keys and non-ASCII WAMP-CRA signatures raise out of receive_message (refuted); partial: every other signature is answered.",
 "C46": "False of the code: receive serializes None and raises AttributeError (refuted); partial: the acceptor is marked aborted and receive_message returns None.",
 "C72": "False of the code: the CHALLENGE carries no salt and the client signs with the raw password (refuted, also by a concrete run); partial: a client holding the derived key is welcomed.",
 "C43": "Parametric in the crypto primitives (Ed25519 correctness assumed as an explicit hypothesis) and in a codec that round-trips the exchanged messages; C43_python_* are about the concrete JSON, MsgPack and CBOR codecs and assume nothing about the serializer.",
 "C39": "Ed25519 correctness is an explicit hypothesis.",
 "C34": "Soundness and completeness; crypto primitives, randomness, clock and a stateful authenticator are arbitrary.",
 "C47": "For histories with at most 2**53 ids issued, as the property says.",
 "C49": "Refuted: after 2**53-1 publishes between two subscriptions both topics have id 1 (and the first subscription then survives its session). C48_distinct is the bounded positive result.",
 "C53": "Proved without any bound on the ids.",
 "C54": "Refuted: the publisher is always among the recipients if subscribed; exclude_me is never read.",
 "C57": "False of the code: a YIELD for a pending invocation from its callee can raise KeyError (refuted); partial: only-if direction, routing and content always; if direction while the call is on record.",
 "C59": "Progressive results fully; the final YIELD holds as long as the call is still on record (C57_on_record), and C59_final_refuted shows that it can raise KeyError otherwise.",
 "C63": "False of the code: no check of the sender (refuted, even for all senders).",
 "C64": "False of the code: a final chunk without progress gets a new invocation id and one of the two cannot be answered; chunks may switch callee (both refuted); partial: chunks with progress share the id.",
 "C65": "False of the code: KeyError escapes from YIELD (refuted); partial: exact condition, everything else is ValueError.",
 "C66": "False of the code: remove_session leaves pending invocations in place and RESULTs go to sessions that left (refuted); partial: INVOCATION, REGISTERED, UNREGISTERED only go to members.",
 "C67": "False of the code: ERROR does not release call_to_invocation_id (refuted); partial: a final RESULT does.",
 "C75": "False of the code: INVOCATION is built with binary=False and RESULT without payload (refuted); partial: what is handed on.",
 "C76": "False of the code: CALL is served for unknown sessions (refuted); partial: YIELD only from the invoked session.",
 "C69": "Network model: sessions, broker, dealer and FIFO links; links carry message objects.",
 "C78": "False of the code, one witness for each of the three assumptions of C69/C77.",
 "C79": "Same network model as C69; UNSUBSCRIBE and UNREGISTER are the subject of C80.",
 "C80": "False of the code: receive_message raises on an id the client does not hold, and the router has nothing to send back. Proved for ids the client holds (C80_*_partial).",
 "C11": "For any lawful codec and for the modelled json (given bytes), msgpack and cbor2 (C11_python).",
 "C81": "JSON (str or, C112, bytes) and MsgPack in full; CBOR: what a tag other than a bignum or a container key raises is up to cbor2 (parameter); everything else is covered. All this without recursion limit: with one, JSON and CBOR input nested deeply enough raises RecursionError (C81_recursion_refuted, C111).",
 "C82": "True for MsgPack and JSON; false for CBOR: cbor2.loads ignores everything after the first item (refuted, for every suffix).",
 "C84": "JSON for inputs that are valid Unicode; false for a JSON text with a raw surrogate pair, which comes back as one character (refuted). CBOR for plain data with the usual NaN; MsgPack for plain data nested at most 511 deep; false for MsgPack in general: the unpacker accepts nesting the packer refuses (refuted).",
 "C85": "False: bytes from MsgPack cannot be sent as JSON, integers from 2**64 from JSON not as MsgPack, lone surrogates from JSON neither as MsgPack nor as CBOR (refuted); partial: every message made of values all three formats carry.",
 "C86": "Without assumption on HMAC: the alternative is an explicit collision. json.dumps is the modelled one.",
 "C87": "json.dumps/json.loads are the modelled ones; authid, authrole and clock without lone surrogates.",
 "C88": "For any codec that carries the messages, and for the concrete codecs with values all formats carry.",
 "C89": "validate_session_id_or_raise accepts 0 and booleans although the comment beside it says 1 to 2**53 (refuted); partial: exactly 0..2**53 and booleans; the other helpers in full.",
 "C91": "str() of the arguments is a parameter.",
 "C93": "Ed25519 correctness is an explicit premise of the signature part.",
 "C94": "False of the code: the options/details getter of a message with a payload serializer writes x_payload_serializer into the caller's dict, and a second message built with that dict then sends it (refuted); partial: other keys never change, and messages that share a dict and agree on the serializer marshal as if alone (this also justifies the state-free marshal of Messages.v).",
 "C95": "Links with bytes (ByteNetwork.v); the router's loop is ours, as in C69.",
 "C96": "C69 and C77 carried over bytes by C95; the same hypotheses.",
 "C97": "C79 carried over bytes by C95; the same hypotheses.",
 "C98": "False: bytes from a MsgPack client are acknowledged but cannot be encoded for a JSON subscriber (refuted). For contents all formats carry see C95-C97.",
 "C99": "Objects: for every schedule. Bytes: contents all formats carry. That an ERROR copies one sent by the invoked callee is not claimed: the dealer does not check the sender (C63).",
 "C100": "Network model of C69 (object links).",
 "C101": "No assumption on the clients, which need not use WAMPSession. Parts of one call share one invocation id (example C101_parts).",
 "C102": "Needs that nobody else sends an ERROR for the invocation, because the dealer accepts it from any session (C63); a YIELD of another session is harmless. The binary payload of a YIELD is not part of the claim: the dealer drops it (C75).",
 "C103": "On objects that are not lists the type is named; RecursionError for self-containing lists is not modelled.",
 "C104": "With the concrete primitives (Sha2.v, Ed25519.v), which are checked against published vectors and the vectors of /repo/tests/auth (CryptoVectors.v, Ed25519Vectors.v).",
 "C105": "False: a secret of fewer than 64 octets followed by chr(0) is welcomed too, because HMAC pads keys with zeros (refuted, for every such secret). Partial: the right secret is welcomed; a secret whose HMAC of the challenge differs is refused.",
 "C106": "The attribution is existential: the model's messages carry no sender, so the theorem says that some attribution explains what arrived. C106_two_events needs none: payloads identify publications.",
 "C107": "With more than 2^53 messages handled ids start again at 1.",
 "C108": "By simulation (C95).",
 "C109": "C109_bounded gives the bound; C109_comes_to_rest with C109_rest_is_idle shows that the premise 'nothing in transit' of C79, C80, C97, C100 and C102 can always be reached.",
 "C110": "Conditions as in C69 and C77. 'Told' means received: the event may arrive after the client sent its UNSUBSCRIBE.",
 "C111": "The limit is a parameter counting nested containers (JSON) or nested decode calls (CBOR); how many Python frames one takes is not modelled.",
 "C112": "json.detect_encoding and the UTF-16/UTF-32 decoders are modelled in JsonBytes.v.",
 "C113": "C69, C77, C79, C80, C100, C102 and C110 with their conditions asked only of the client concerned (disciplined, SpecNetwork.v); the others need not even use WAMPSession (APut). A call can still be ended by an ERROR of a third party (C63), which C113_call_answered excludes by no_reply.",
 "C114": "C113 on bytes, with clients that bypass the library entirely (HostileNetwork.v). The router drops a message it cannot serialize for the recipient, and an item it cannot deserialize, as in C95. Calls to a procedure of a hostile client are not covered (its reply may be unserializable for the caller).",
 "C115": "C109 on bytes with hostile clients. Bound and coming to rest need no condition on any client.",
 "C116": "C110 on bytes with hostile clients; same conditions on the client concerned as C114.",
 "C117": "The standards are written down on bit strings in SpecSha2.v, with the constants computed from the roots of primes; SpecBase64.v describes the texts.",
 "C118": "RFC 8032 is written down on pairs of integers in SpecEd25519.v (no division: the equations are multiplied by the denominators), SHA-512 on bit strings in SpecSha2.v. Both moduli are proved prime and the group law associative, so the theorem speaks about the curve and not about the formulas of the model.",
 "C119": "The exception (a nonce that is a multiple of the group order) is a SHA-512 output nobody can produce; it is stated because libsodium refuses such a signature.",
 "C120": "Follows from the order of the base point; nothing is claimed about the first half.",
 "C121": "SpecCbor.v writes the RFC down as a relation between values and octets; not in it: tags other than bignums and container keys (not modelled). No recursion limit here (C111).",
 "C122": "SpecMsgPack.v writes the specification down as a relation between values and octets. Ext objects are one opaque value.",
 "C123": "SpecJson.v writes the grammar down as a relation between values and texts, rounding included. Refuted part: NaN and infinities are written, and are not JSON. Input as UTF-8; other encodings C112. No recursion limit here (C111).",
 "C124": "Refuted part: a JSON object raises KeyError, and maps count as payloads (payload.py does not check that arr is a list). Generalises C13, which is about lists.",
 "C125": "JSON spelled in UTF-8; other Unicode encodings of JSON are C112.",
 "C126": "JSON given as text or in UTF-8.",
 "C127": "About the model of CPython's float.__repr__ that the json module uses.",
 "C128": "The main loop of the router is that of HostileNetwork.v. The request id of a pending call is repeated in its result, hence 2M.",
 "C129": "The behaviour is a parameter (record unknown in CodecOpen.v). Since then is_python_codec, the premise of C43, C88, C95-C97, C105, C108, C113-C116 and C119, includes the libraries with any such behaviour. An object is known by its class and truth value only; cyclic values (CBOR tags 28 and 29) cannot be represented.",
 "C130": "receive_message of acceptor and joiner in full, and a refused HELLO. False of receive and send_hello: when the answer cannot be serialized they raise after the state has changed (refuted for all three; the other cases are C130_acceptor_bytes_partial). Dealer: true of ValueErrors, false of the KeyErrors of C65. Broker: C53; session: C26.",
 "C131": "In full. The URI of an ERROR and the options are not renamed: the dealer makes some of the former, and reads the latter. Texts of ValueErrors may differ (they name the session).",
 "C132": "In full for fewer than 2^53 calls; beyond that ids wrap (C49). The reference follows the code where the code departs from the protocol, e.g. the KeyError of the dealer (C130) and errors from sessions other than the callee.",
 "C133": "Refuted: `clone` computes the generator from texts seen. For texts drawn in a row with nothing else drawn in between; draws in between that are not seen (session ids of connections that fail) are not covered. CPython's generator is modelled in Random.v; seeding is not.",
 "C134": "In full. That an attempt below 2^53 comes up is not stated: `randint` may try any number of times.",
 "C135": "Refuted for JSON and MsgPack; C135_text, C135_read and C135_message say exactly what JSON does instead, C135_others shows the other two on an example.",
 "C136": "Proved. Also shows that ids of different sorts never interact.",
 "C137": "Proved. Each call is taken as atomic; calls of several threads that run inside each other are not modelled. C137_answer_first shows that the exception is needed.",
 "C05": "Proved of lists whose ints can be written as text; for ints of more than 4300 digits see C138.",
 "C138": "Refuted by C138_refuted; C138_same, C138_messages and C138_exceptions say what holds. Objects of other classes count as writable."
}