{"id": "C01", "title": "Marshal/parse round trip of every message class", "statement": "For every message object m of the 24 classes whose fields are well formed (ids are ints in 1..2**53, HELLO/WELCOME roles non-empty and allowed), to_message(m.marshal()) returns a message of the same class with the same fields, up to exactly these normalisations: args None becomes [] when kwargs is present, a payload serializer is folded into options/details, and ABORT args/kwargs are not carried.", "quantifier": "all 24 message classes, all field values (arbitrary nested Python values in args/kwargs/options/details)", "why_tests_cant": "Field values range over an infinite set of nested values, ids over 2**53 values, and optional fields over all presence combinations.", "anchors": ["wampproto/messages/*.py: parse, marshal", "wampproto/serializers/serializer.py: to_message"]}
{"id": "C02", "title": "parse accepts exactly the schema", "statement": "Class.parse(l) succeeds iff l has an allowed length, starts with something equal to the class TYPE, and each position has the type required by the WAMP schema (ids are ints within 1..2**53, uris/topics/realms are str, options/details are dict, args list, kwargs dict, HELLO/WELCOME details well typed with non-empty allowed roles).", "quantifier": "all Python lists of arbitrary values, all 24 classes", "why_tests_cant": "The input space is all nested values; tests only show some rejected and some accepted samples.", "anchors": ["wampproto/messages/util.py: validate_message, sanity_check, validate_*", "wampproto/messages/*.py: VALIDATION_SPEC"]}
{"id": "C03", "title": "Parsed fields are the list elements", "statement": "When Class.parse(l) succeeds, every attribute of the resulting message equals the element of l (or the entry of its details dict) at the position the WAMP schema gives it; nothing is swapped, defaulted or altered (except WELCOME's authextra, which becomes {} when absent).", "quantifier": "all accepted lists, all 24 classes", "why_tests_cant": "Swapped or dropped fields are visible only for inputs where the fields differ; needs all inputs.", "anchors": ["wampproto/messages/*.py: parse", "wampproto/messages/util.py: Fields"]}
{"id": "C04", "title": "Parser exception discipline", "statement": "to_message(v) on any decoded value v either returns a message or raises: TypeError iff v is not a list or is a non-empty list whose head is not an int, IndexError iff v is the empty list, ValueError otherwise. No other exception type escapes.", "quantifier": "all Python values a JSON/CBOR/MsgPack decoder can return", "why_tests_cant": "Absence of unexpected exceptions over all inputs cannot be sampled.", "anchors": ["wampproto/serializers/serializer.py: to_message", "wampproto/messages/util.py: validate_message, sanity_check"]}
{"id": "C05", "title": "All violations are reported, in order", "statement": "When a list of allowed length and correct type code is rejected by parse, the raised ValueError's args are exactly the violations of all positions in ascending order (each details-key violation of HELLO/WELCOME separately), not only the first one. (Lists with ints of more than 4300 digits aside: CPython refuses to write these as text, and the ValueError then says only that.)", "quantifier": "all lists with allowed length and no int of more than 4300 digits, all 24 classes, all combinations of simultaneous violations", "why_tests_cant": "Combinations of simultaneous violations are exponential in the number of fields and values.", "anchors": ["wampproto/messages/util.py: validate_message, validate_hello_details, validate_welcome_details", "wampproto/messages/exceptions.py"]}
{"id": "C06", "title": "Re-marshalling is transparent", "statement": "If to_message(l) returns m and m is not HELLO, WELCOME or ABORT, then m.marshal() equals l (element for element; the type code compares equal), so a router that parses and re-marshals does not alter a message.", "quantifier": "all accepted lists of the 21 classes that carry no filtered dict", "why_tests_cant": "Infinite input space.", "anchors": ["wampproto/messages/*.py: parse, marshal"]}
{"id": "C07", "title": "Dispatch by type code", "statement": "to_message(l) returns a message whose class TYPE equals l[0]; the 24 TYPE codes are pairwise distinct; a type code outside the 24 is rejected with ValueError.", "quantifier": "all lists and all integer type codes", "why_tests_cant": "All integers.", "anchors": ["wampproto/serializers/serializer.py: to_message", "wampproto/messages/*.py: TYPE"]}
{"id": "C08", "title": "ABORT keeps its arguments on the wire", "statement": "For every ABORT message with args/kwargs, parsing its marshalled form yields the same args and kwargs (so the reason details given by an authenticator reach the client).", "quantifier": "all ABORT messages", "why_tests_cant": "Quantifies over all argument values.", "anchors": ["wampproto/messages/abort.py: Abort.marshal", "wampproto/acceptor.py: receive_message"]}
{"id": "C09", "title": "Booleans are not ids", "statement": "parse never accepts a non-integer JSON value as an id: an accepted id position holds an int that is not a bool.", "quantifier": "all accepted lists", "why_tests_cant": "Universal negative over inputs.", "anchors": ["wampproto/messages/util.py: validate_id_or_raise, validate_int_or_raise"]}
{"id": "C10", "title": "Serializer round trip on the wire", "statement": "For each of the JSON, MsgPack and CBOR serializers, deserialize(serialize(m)) equals m up to the normalisations of C01, whenever the underlying codec round-trips the marshalled value; with the modelled MsgPack, CBOR and JSON codecs this holds for every well formed message whose values are in the codec's domain.", "quantifier": "all messages, all three serializers", "why_tests_cant": "All nested values and sizes (e.g. every length class of the binary formats).", "anchors": ["wampproto/serializers/json.py", "wampproto/serializers/msgpack.py", "wampproto/serializers/cbor.py", "wampproto/serializers/serializer.py"]}
{"id": "C11", "title": "Payload encode/decode round trip", "statement": "For serializer ids 1,2,3, deserialize_payload(id, serialize_payload(id, args, kwargs)) returns (args, kwargs), except that args None with kwargs given comes back as [].", "quantifier": "all args/kwargs presence combinations and values", "why_tests_cant": "All nested values.", "anchors": ["wampproto/serializers/payload.py: serialize_payload, deserialize_payload, decode, prepare_for_encode"]}
{"id": "C12", "title": "Opaque (NONE) payloads", "statement": "serialize_payload(0, args, kwargs) returns the bytes iff args is a one-element list of bytes and kwargs is empty/None, returns None iff both are None, and raises otherwise; deserialize_payload(0, b) returns ([b], {}) for every b.", "quantifier": "all args/kwargs values, all byte strings", "why_tests_cant": "All values.", "anchors": ["wampproto/serializers/payload.py: serialize_payload, deserialize_payload"]}
{"id": "C13", "title": "Payload decode rejects malformed payloads", "statement": "decode(arr) of a list succeeds iff it is empty, or has one or two elements where the first is a list and the second (if any) a dict; it returns exactly those elements; other lists raise ValueError (too long) or TypeError.", "quantifier": "all lists", "why_tests_cant": "All values.", "anchors": ["wampproto/serializers/payload.py: decode"]}
{"id": "C14", "title": "Binary payload reaches the peer", "statement": "A CALL/YIELD/RESULT/INVOCATION constructed with a binary payload delivers that payload to the peer after marshal and parse.", "quantifier": "all payloads", "why_tests_cant": "All payload values.", "anchors": ["wampproto/messages/call.py: Call.marshal", "wampproto/messages/yield_.py", "wampproto/messages/result.py", "wampproto/messages/invocation.py"]}
{"id": "C15", "title": "RawSocket header round trip", "statement": "For every kind in 0..255 and length in 0..2**24-1, MessageHeader.from_bytes(MessageHeader(kind,length).to_bytes()) has the same kind and length, and to_bytes is 4 bytes; conversely every 4-byte string is the encoding of exactly one such header.", "quantifier": "all 2**32 headers", "why_tests_cant": "2**32 headers.", "anchors": ["wampproto/transports/rawsocket.py: MessageHeader, int_to_bytes, bytes_to_int"]}
{"id": "C16", "title": "Every length up to the protocol maximum is framed faithfully", "statement": "MessageHeader(kind, n).to_bytes() decodes to n for every n from 0 up to and including PROTOCOL_MAX_MSG_SIZE; a length that does not fit is rejected.", "quantifier": "all lengths", "why_tests_cant": "Boundary behaviour over all integers.", "anchors": ["wampproto/transports/rawsocket.py: MessageHeader.to_bytes, int_to_bytes, PROTOCOL_MAX_MSG_SIZE"]}
{"id": "C17", "title": "RawSocket handshake round trip and negotiated size", "statement": "For protocol 0..15 and 512 <= max_msg_size < 2**25, from_bytes(to_bytes(h)) keeps the protocol and yields the largest power of two not above max_msg_size; it is exact for powers of two 2**9..2**24. For max_msg_size < 512 or >= 2**25 to_bytes raises ValueError.", "quantifier": "all protocols and all sizes", "why_tests_cant": "All integers.", "anchors": ["wampproto/transports/rawsocket.py: send_handshake, receive_handshake"]}
{"id": "C18", "title": "Handshake rejects malformed input", "statement": "receive_handshake raises ValueError unless the input is exactly 4 bytes, starts with the magic octet and has both reserved octets zero.", "quantifier": "all byte strings", "why_tests_cant": "All byte strings.", "anchors": ["wampproto/transports/rawsocket.py: receive_handshake"]}
{"id": "C19", "title": "Framed streams decode uniquely", "statement": "A byte stream made of any sequence of (kind, body) frames, each MessageHeader.to_bytes() followed by its body, is split back into exactly that sequence by reading a 4-byte header and then length bytes.", "quantifier": "all sequences of frames with bodies shorter than 2**24", "why_tests_cant": "All sequences and sizes.", "anchors": ["wampproto/transports/rawsocket.py: MessageHeader"]}
{"id": "C20", "title": "Generated ids are valid and do not repeat", "statement": "Every id returned by SessionScopeIDGenerator.next() lies in 1..2**53, the first is 1, they increase by one and wrap to 1 after 2**53, and any two calls fewer than 2**53 apart return different ids.", "quantifier": "all call sequences", "why_tests_cant": "2**53 calls are needed to reach the wrap.", "anchors": ["wampproto/idgen.py: SessionScopeIDGenerator.next"]}
{"id": "C21", "title": "Calls are answered at most once", "statement": "WAMPSession.receive_message accepts a RESULT, or an ERROR for CALL, for request r iff a CALL r was sent and no RESULT/ERROR for r has been accepted since; otherwise it raises ValueError.", "quantifier": "all interleavings of sent and received messages", "why_tests_cant": "All histories.", "anchors": ["wampproto/session.py: send_message, receive_message"]}
{"id": "C22", "title": "Registration life cycle of a session", "statement": "A session accepts REGISTERED/ERROR only for an outstanding REGISTER, UNREGISTERED/ERROR only for an outstanding UNREGISTER, and accepts an INVOCATION iff its registration id was REGISTERED and has not been UNREGISTERED since.", "quantifier": "all histories of sent and received messages", "why_tests_cant": "All histories.", "anchors": ["wampproto/session.py"]}
{"id": "C23", "title": "Subscription life cycle of a session", "statement": "A session accepts SUBSCRIBED/ERROR only for an outstanding SUBSCRIBE, UNSUBSCRIBED/ERROR only for an outstanding UNSUBSCRIBE, and accepts an EVENT iff its subscription id was SUBSCRIBED and has not been UNSUBSCRIBED since.", "quantifier": "all histories of sent and received messages", "why_tests_cant": "All histories.", "anchors": ["wampproto/session.py"]}
{"id": "C24", "title": "Yield discipline", "statement": "send_message(YIELD r) succeeds iff an INVOCATION r was accepted and neither a YIELD r nor an ERROR r for it was sent since; thus at most one YIELD per accepted INVOCATION.", "quantifier": "all histories", "why_tests_cant": "All histories.", "anchors": ["wampproto/session.py: send_message"]}
{"id": "C25", "title": "Publish acknowledgement discipline", "statement": "PUBLISHED r (or ERROR for PUBLISH r) is accepted iff a PUBLISH r with a truthy acknowledge option was sent and not yet answered; unacknowledged publishes never create an expectation.", "quantifier": "all histories and option values", "why_tests_cant": "All histories.", "anchors": ["wampproto/session.py"]}
{"id": "C26", "title": "Rejected messages leave the session unchanged", "statement": "If receive_message or send_message raises because a message is not acceptable, every later accept/reject decision is as if the message had not occurred.", "quantifier": "all histories and all rejected messages", "why_tests_cant": "All histories.", "anchors": ["wampproto/session.py"]}
{"id": "C27", "title": "Progressive results reach the caller", "statement": "After sending CALL r, a session accepts any number of RESULT r messages marked progress followed by a final RESULT r.", "quantifier": "all numbers of progressive results", "why_tests_cant": "Unbounded number of chunks.", "anchors": ["wampproto/session.py: receive_message (Result)"]}
{"id": "C28", "title": "Request kinds are independent", "statement": "Messages about one kind of request (call, register, unregister, publish, subscribe, unsubscribe, invocation) never affect acceptance of another kind, even when the numeric request ids coincide.", "quantifier": "all histories", "why_tests_cant": "All histories.", "anchors": ["wampproto/session.py"]}
{"id": "C29", "title": "send_message returns the message's serialization", "statement": "Whenever send_message(m) returns, the returned data is serializer.serialize(m), and the peer's deserialize yields m (C10); receive(data) behaves as receive_message(deserialize(data)).", "quantifier": "all sendable messages and histories", "why_tests_cant": "All messages.", "anchors": ["wampproto/session.py: send_message, receive"]}
{"id": "C30", "title": "Joiner protocol order", "statement": "get_session_details() returns iff a WELCOME has been accepted; a WELCOME is accepted iff a HELLO has been sent and no WELCOME was accepted since that HELLO; details carry the WELCOME's session id, authid, authrole and the joiner's realm.", "quantifier": "all histories of send_hello and received messages", "why_tests_cant": "All histories.", "anchors": ["wampproto/joiner.py"]}
{"id": "C31", "title": "Joiner answers a challenge at most once per HELLO", "statement": "A CHALLENGE is answered with the authenticator's AUTHENTICATE iff the last accepted step was send_hello; all other CHALLENGEs are rejected without changing the joiner.", "quantifier": "all histories", "why_tests_cant": "All histories.", "anchors": ["wampproto/joiner.py: receive_message"]}
{"id": "C32", "title": "ABORT surfaces as ApplicationError", "statement": "In every state, receiving ABORT raises ApplicationError carrying the ABORT's reason, args and kwargs.", "quantifier": "all states and ABORT messages", "why_tests_cant": "All values.", "anchors": ["wampproto/joiner.py: receive_message", "wampproto/exception.py"]}
{"id": "C33", "title": "ABORT is final for a joiner", "statement": "After an ABORT was received no later WELCOME establishes a session unless send_hello is called again.", "quantifier": "all histories", "why_tests_cant": "All histories.", "anchors": ["wampproto/joiner.py: receive_message"]}
{"id": "C34", "title": "No WELCOME without authentication", "statement": "In any history, with any peer and any (stateful) authenticator, Acceptor emits WELCOME only if: no authenticator is configured; or the authenticator accepted an anonymous request for the HELLO's realm/authid; or it accepted the HELLO's pubkey and the AUTHENTICATE signature verifies under that pubkey; or it accepted a WAMP-CRA request and the signature is the HMAC of the challenge sent for that HELLO under the returned secret; or it accepted a ticket request with the HELLO's realm/authid and the AUTHENTICATE's signature as ticket. authid/authrole of the WELCOME are those of the authenticator's response.", "quantifier": "all message histories, all authenticators, all random challenges", "why_tests_cant": "Adversarial histories.", "anchors": ["wampproto/acceptor.py: receive_message"]}
{"id": "C35", "title": "Acceptor establishes at most one session", "statement": "At most one WELCOME is emitted in any history; after it every message raises ValueError and nothing changes.", "quantifier": "all histories", "why_tests_cant": "All histories.", "anchors": ["wampproto/acceptor.py: receive_message"]}
{"id": "C36", "title": "Acceptor session details", "statement": "get_session_details() returns iff a WELCOME was emitted, with the WELCOME's session id, authid and authrole, and the realm of the HELLO that started the successful handshake.", "quantifier": "all histories", "why_tests_cant": "All histories.", "anchors": ["wampproto/acceptor.py: get_session_details"]}
{"id": "C37", "title": "Acceptor message order", "statement": "HELLO is accepted only before a challenge/welcome/abort; AUTHENTICATE only directly after a CHALLENGE was sent; otherwise ValueError and no change.", "quantifier": "all histories", "why_tests_cant": "All histories.", "anchors": ["wampproto/acceptor.py: receive_message"]}
{"id": "C38", "title": "WAMP-CRA signature check is exact", "statement": "verify_wampcra_signature(sign_wampcra_challenge(c,k),c,k) is true for all c,k, and verify returns true only for signatures that base64-decode to HMAC-SHA256(k,c).", "quantifier": "all challenges, keys and signature strings", "why_tests_cant": "All strings.", "anchors": ["wampproto/auth/wampcra.py: sign_wampcra_challenge, verify_wampcra_signature"]}
{"id": "C39", "title": "Cryptosign sign/verify", "statement": "verify_cryptosign_signature(sign_cryptosign_challenge(c,key),pub(key)) is true for every hex challenge c; it is true only if the decoded signature's first 64 bytes are a valid Ed25519 signature of the rest.", "quantifier": "all challenges, keys and signature strings", "why_tests_cant": "All strings.", "anchors": ["wampproto/auth/cryptosign.py"]}
{"id": "C40", "title": "Challenge freshness", "statement": "A session is established by challenge-response only if the peer signed the very challenge sent in this handshake, so an AUTHENTICATE recorded from another handshake is useless.", "quantifier": "all histories and challenges", "why_tests_cant": "Adversarial histories.", "anchors": ["wampproto/acceptor.py: receive_message", "wampproto/auth/cryptosign.py: verify_cryptosign_signature"]}
{"id": "C41", "title": "ABORT is final for an acceptor", "statement": "Once Acceptor has replied ABORT, no later message can lead to WELCOME and is_aborted() is true.", "quantifier": "all histories", "why_tests_cant": "All histories.", "anchors": ["wampproto/acceptor.py: receive_message, is_aborted"]}
{"id": "C42", "title": "Bad credentials yield ABORT, not an exception", "statement": "Any AUTHENTICATE received after a CHALLENGE is answered with WELCOME or ABORT, whatever the signature string.", "quantifier": "all signature strings", "why_tests_cant": "All strings.", "anchors": ["wampproto/acceptor.py: receive_message", "wampproto/auth/wampcra.py", "wampproto/auth/cryptosign.py"]}
{"id": "C43", "title": "Handshake agreement end to end", "statement": "For each authentication method, a Joiner and an Acceptor exchanging bytes, with an authenticator that accepts the client and matching credentials, both become established and report equal session details (session id, realm, authid, authrole).", "quantifier": "all realms, authids, roles, secrets, keys, tickets, challenges, and codecs that round-trip", "why_tests_cant": "All inputs.", "anchors": ["wampproto/joiner.py", "wampproto/acceptor.py"]}
{"id": "C44", "title": "Wrong credentials never join", "statement": "If the client's WAMP-CRA secret yields a different HMAC than the router's, or the ticket is rejected by the authenticator, the exchange ends in ABORT and an ApplicationError at the joiner, and neither side has session details.", "quantifier": "all secrets, tickets and challenges", "why_tests_cant": "All inputs.", "anchors": ["wampproto/joiner.py", "wampproto/acceptor.py"]}
{"id": "C45", "title": "receive reports completion", "statement": "Acceptor.receive returns (serialized reply, done) with done true iff the reply is WELCOME or ABORT.", "quantifier": "all states and messages that produce a reply", "why_tests_cant": "All inputs.", "anchors": ["wampproto/acceptor.py: receive"]}
{"id": "C46", "title": "Acceptor.receive handles a client ABORT", "statement": "Feeding a client's ABORT to Acceptor.receive before the session is established marks the acceptor aborted and returns normally.", "quantifier": "all ABORT messages and pre-established states", "why_tests_cant": "All inputs.", "anchors": ["wampproto/acceptor.py: receive, receive_message"]}
{"id": "C47", "title": "Publish reaches exactly the current subscribers", "statement": "receive_publish(s, PUBLISH t) returns as recipients exactly the sessions that are subscribed to t at that moment (subscribed, not since unsubscribed or removed), each once, in order of their subscription; event is present iff there is at least one.", "quantifier": "all operation histories on a broker (fewer than 2**53 ids issued)", "why_tests_cant": "All histories and interleavings.", "anchors": ["wampproto/broker.py: receive_publish, receive_message, remove_session"]}
{"id": "C48", "title": "Subscription ids identify topics", "statement": "While a topic has subscribers, every SUBSCRIBED for it carries the same id and EVENTs carry that id; at any time two topics with subscribers have different ids.", "quantifier": "all histories (fewer than 2**53 ids issued)", "why_tests_cant": "All histories.", "anchors": ["wampproto/broker.py: receive_message"]}
{"id": "C49", "title": "Subscription ids stay unique forever", "statement": "At any time two topics with subscribers have different ids, however long the broker has run.", "quantifier": "all histories without bound", "why_tests_cant": "Needs more than 2**53 operations.", "anchors": ["wampproto/broker.py", "wampproto/idgen.py"]}
{"id": "C50", "title": "EVENT content and acknowledgement", "statement": "The EVENT carries the PUBLISH's args and kwargs and a publication id never used before by this broker; PUBLISHED is returned iff the acknowledge option is truthy, addressed to the publisher, with the PUBLISH's request id and the EVENT's publication id.", "quantifier": "all histories and publishes", "why_tests_cant": "All histories.", "anchors": ["wampproto/broker.py: receive_publish"]}
{"id": "C51", "title": "Unsubscribe and has_subscription", "statement": "UNSUBSCRIBE(s,id) succeeds iff s is currently subscribed to the topic identified by id, and removes exactly that subscription; has_subscription(t) is true iff t has at least one subscriber.", "quantifier": "all histories (fewer than 2**53 ids issued)", "why_tests_cant": "All histories.", "anchors": ["wampproto/broker.py"]}
{"id": "C52", "title": "Broker membership", "statement": "add_session succeeds iff the session is not currently a member; remove_session iff it is; SUBSCRIBE/UNSUBSCRIBE/PUBLISH from non-members raise ValueError; removal ends all subscriptions of that session and no other.", "quantifier": "all histories", "why_tests_cant": "All histories.", "anchors": ["wampproto/broker.py: add_session, remove_session"]}
{"id": "C53", "title": "Broker never fails internally", "statement": "Every exception the broker raises is a ValueError for a documented misuse; no KeyError escapes; and a rejected operation leaves the broker unchanged.", "quantifier": "all histories", "why_tests_cant": "Absence of failures over all histories.", "anchors": ["wampproto/broker.py"]}
{"id": "C54", "title": "Publisher does not receive its own event", "statement": "Unless exclude_me is false, the publishing session is not among the recipients (WAMP default).", "quantifier": "all histories", "why_tests_cant": "All histories.", "anchors": ["wampproto/broker.py: receive_publish"]}
{"id": "C55", "title": "One registration per procedure", "statement": "REGISTER p by a member succeeds iff no session currently holds p, else an ERROR procedure_already_exists for that request is returned to the requester; has_registration(p) is true iff p is held.", "quantifier": "all histories (fewer than 2**53 ids issued)", "why_tests_cant": "All histories.", "anchors": ["wampproto/dealer.py: receive_message, has_registration"]}
{"id": "C56", "title": "Calls are routed to the registrant", "statement": "CALL p yields an INVOCATION addressed to the session currently holding p with its registration id, the call's args/kwargs, and progress flags iff requested; if nobody holds p an ERROR no_such_procedure with the call's request id goes to the caller.", "quantifier": "all histories (fewer than 2**53 ids issued)", "why_tests_cant": "All histories.", "anchors": ["wampproto/dealer.py: receive_message (Call)"]}
{"id": "C57", "title": "Results return to the caller", "statement": "A YIELD i from session s yields a RESULT iff i is a pending invocation that was routed to s; the RESULT goes to the session that made the CALL, with that CALL's request id and the YIELD's args/kwargs.", "quantifier": "all histories and interleavings of calls (fewer than 2**53 ids issued)", "why_tests_cant": "All interleavings.", "anchors": ["wampproto/dealer.py: receive_message (Yield)"]}
{"id": "C58", "title": "At most one final answer per invocation", "statement": "After a non-progress YIELD or an ERROR for invocation i has been forwarded, no further YIELD or ERROR for i is forwarded (fewer than 2**53 ids issued).", "quantifier": "all histories", "why_tests_cant": "All histories.", "anchors": ["wampproto/dealer.py: receive_message"]}
{"id": "C59", "title": "Progressive results pass through", "statement": "A YIELD with truthy progress on an invocation whose CALL asked receive_progress is forwarded as a RESULT marked progress and leaves the invocation pending; any other YIELD is forwarded unmarked and ends it.", "quantifier": "all histories, any number of progressive yields", "why_tests_cant": "Unbounded number of chunks.", "anchors": ["wampproto/dealer.py: receive_message (Yield)"]}
{"id": "C60", "title": "Unregister and session removal", "statement": "UNREGISTER(s,id) succeeds iff s currently holds the registration id and frees exactly that procedure; remove_session(s) frees exactly the procedures held by s; other sessions' registrations are untouched.", "quantifier": "all histories (fewer than 2**53 ids issued)", "why_tests_cant": "All histories.", "anchors": ["wampproto/dealer.py: receive_message (Unregister), remove_session"]}
{"id": "C61", "title": "Dealer membership", "statement": "add_session succeeds iff the session is not a member, remove_session iff it is, REGISTER/UNREGISTER from non-members raise ValueError.", "quantifier": "all histories", "why_tests_cant": "All histories.", "anchors": ["wampproto/dealer.py: add_session, remove_session"]}
{"id": "C62", "title": "Errors return to the caller", "statement": "An ERROR for a pending invocation is forwarded to the session that made the CALL as an ERROR for CALL with that CALL's request id and the same uri, args, kwargs and details; ERRORs of other kinds or for non-pending invocations raise ValueError.", "quantifier": "all histories", "why_tests_cant": "All histories.", "anchors": ["wampproto/dealer.py: receive_message (Error)"]}
{"id": "C63", "title": "Only the callee can fail an invocation", "statement": "An ERROR for a pending invocation is forwarded only if it comes from the session the invocation was sent to.", "quantifier": "all histories", "why_tests_cant": "All histories.", "anchors": ["wampproto/dealer.py: receive_message (Error)"]}
{"id": "C64", "title": "Chunks of a progressive call share one invocation", "statement": "All CALL chunks with the same caller and request id, including the final one without progress, produce INVOCATIONs with the same invocation id to the same callee, each of which can be answered.", "quantifier": "all histories", "why_tests_cant": "All histories.", "anchors": ["wampproto/dealer.py: receive_message (Call)"]}
{"id": "C65", "title": "Dealer never fails internally", "statement": "Every exception raised by the dealer is a ValueError; no KeyError escapes.", "quantifier": "all histories", "why_tests_cant": "Absence of failures over all histories.", "anchors": ["wampproto/dealer.py"]}
{"id": "C66", "title": "Callers are told when their callee leaves", "statement": "When a session is removed, its pending invocations are failed to their callers, and no message is ever addressed to a removed session.", "quantifier": "all histories", "why_tests_cant": "All histories.", "anchors": ["wampproto/dealer.py: remove_session"]}
{"id": "C67", "title": "Invocation bookkeeping is released", "statement": "After the final answer of a call (YIELD or ERROR), the dealer keeps no record of it: a new CALL reusing the request id behaves like a fresh call.", "quantifier": "all histories", "why_tests_cant": "All histories.", "anchors": ["wampproto/dealer.py"]}
{"id": "C68", "title": "Invocation and registration ids are distinct", "statement": "No two invocations issued by fresh calls and no two registrations carry the same id, and no invocation id equals a registration id (fewer than 2**53 ids issued).", "quantifier": "all histories", "why_tests_cant": "All histories.", "anchors": ["wampproto/dealer.py", "wampproto/idgen.py"]}
{"id": "C69", "title": "Pub/sub messages are never rejected by the client", "statement": "With FIFO links between any number of WAMPSession clients and a router using a Broker, in any interleaving of joins, departures, client requests, routing and deliveries in which no client uses a request id twice for the same kind of request during one connection, every EVENT, SUBSCRIBED, UNSUBSCRIBED and PUBLISHED delivered to a client is accepted by its session.", "quantifier": "all schedules in which the router handles at most 2^53 messages, any number of clients", "why_tests_cant": "Interleavings of unboundedly many clients.", "anchors": ["wampproto/session.py", "wampproto/broker.py"]}
{"id": "C70", "title": "Key derivation guards", "statement": "The WAMP-CRA client derives the key iff the challenge carries a salt; iterations or keylen equal to 0 (or missing) raise ValueError; without salt the secret itself is the key; a missing challenge raises KeyError; a challenge or salt with lone surrogates raises ValueError.", "quantifier": "all challenge extras", "why_tests_cant": "All values.", "anchors": ["wampproto/auth/wampcra.py: WAMPCRAAuthenticator.authenticate, derive_cra_key"]}
{"id": "C71", "title": "Cryptosign client announces its public key", "statement": "A CryptoSignAuthenticator's auth_extra always has a pubkey entry; it is the key pair's public key unless the caller supplied one, and all other caller entries are preserved.", "quantifier": "all keys and auth_extra dicts", "why_tests_cant": "All values.", "anchors": ["wampproto/auth/cryptosign.py: CryptoSignAuthenticator"]}
{"id": "C72", "title": "Salted WAMP-CRA works end to end", "statement": "If the server authenticator returns a WAMPCRASaltedResponse whose secret is the key derived from the password with its salt, iterations and keylen, a client knowing the password is welcomed.", "quantifier": "all passwords and salts", "why_tests_cant": "All values.", "anchors": ["wampproto/auth/auth.py: WAMPCRASaltedResponse", "wampproto/acceptor.py: receive_message (wampcra)"]}
{"id": "C73", "title": "Authenticators do not modify caller data", "statement": "Constructing a CryptoSignAuthenticator leaves the auth_extra dict passed by the caller unchanged, so one dict can be shared by several authenticators.", "quantifier": "all keys and auth_extra dicts", "why_tests_cant": "All dicts; aliasing is rarely tested.", "anchors": ["wampproto/auth/cryptosign.py: CryptoSignAuthenticator"]}
{"id": "C74", "title": "At most one CHALLENGE per acceptor", "statement": "In any history an Acceptor sends at most one CHALLENGE, so a peer cannot collect several challenges from one connection.", "quantifier": "all histories, peers and authenticators", "why_tests_cant": "All histories.", "anchors": ["wampproto/acceptor.py: receive_message"]}
{"id": "C75", "title": "Binary payloads pass through the dealer", "statement": "If a CALL carries a binary payload, so does the INVOCATION made from it (same payload, same serializer, still marked binary), and likewise the RESULT made from a YIELD.", "quantifier": "all histories and payloads", "why_tests_cant": "All histories and payloads.", "anchors": ["wampproto/dealer.py: receive_message", "wampproto/messages/message.py: BinaryPayload"]}
{"id": "C76", "title": "Only members use the dealer", "statement": "CALL, YIELD, ERROR, REGISTER and UNREGISTER from a session that is not a member raise ValueError and have no effect.", "quantifier": "all histories", "why_tests_cant": "All histories.", "anchors": ["wampproto/dealer.py: receive_message"]}
{"id": "C77", "title": "RPC messages are never rejected by the client", "statement": "With FIFO links between any number of WAMPSession clients and a router using a Dealer, in any interleaving in which no client reuses a request id for the same kind of request, no session id is admitted twice and no progressive results are asked for (or none sent), every REGISTERED, UNREGISTERED, INVOCATION, RESULT and ERROR delivered to a client is accepted by its session.", "quantifier": "all schedules in which the router handles at most 2^53 messages, any number of clients", "why_tests_cant": "Interleavings of unboundedly many clients.", "anchors": ["wampproto/session.py", "wampproto/dealer.py"]}
{"id": "C78", "title": "The network is robust against clients that bend the rules", "statement": "Deliveries are accepted also when clients reuse request ids, use progressive results or when a session id is assigned again after its owner left.", "quantifier": "all schedules", "why_tests_cant": "Interleavings of unboundedly many clients.", "anchors": ["wampproto/session.py", "wampproto/broker.py", "wampproto/dealer.py"]}
{"id": "C79", "title": "No request is lost between client and router", "statement": "In the network of C69/C77, once nothing is in transit on the links of a client that stayed connected, each SUBSCRIBE, acknowledged PUBLISH and REGISTER it sent has been answered with a message its session accepted, and each CALL has either been answered so or is still pending in the dealer, waiting for its callee.", "quantifier": "all schedules in which the router handles at most 2^53 messages, any number of clients", "why_tests_cant": "Interleavings of unboundedly many clients.", "anchors": ["wampproto/session.py", "wampproto/broker.py", "wampproto/dealer.py"]}
{"id": "C80", "title": "Every UNSUBSCRIBE and UNREGISTER is answered", "statement": "In the same network, once nothing is in transit on the links of a client, each UNSUBSCRIBE and UNREGISTER it sent has been answered.", "quantifier": "all schedules", "why_tests_cant": "Interleavings of unboundedly many clients.", "anchors": ["wampproto/broker.py", "wampproto/dealer.py"]}
{"id": "C81", "title": "Arbitrary received bytes give a message or a documented exception", "statement": "For every byte string, deserialize of the MsgPack serializer returns a message or raises ValueError, TypeError or IndexError; JSON likewise; CBOR may also raise CBORDecodeError. No KeyError, AttributeError, UnboundLocalError or the like escapes.", "quantifier": "all byte strings", "why_tests_cant": "The input space is unbounded; fuzzing samples it.", "anchors": ["wampproto/serializers/json.py", "wampproto/serializers/msgpack.py", "wampproto/serializers/cbor.py"]}
{"id": "C82", "title": "Bytes after a message are rejected", "statement": "If b deserializes to a message then b followed by further bytes raises ValueError (for JSON: unless the further bytes are whitespace), with each serializer.", "quantifier": "all messages, all suffixes", "why_tests_cant": "Any suffix of any length.", "anchors": ["wampproto/serializers/json.py", "wampproto/serializers/msgpack.py", "wampproto/serializers/cbor.py"]}
{"id": "C83", "title": "A message cut short is rejected", "statement": "No proper prefix of a serialized message deserializes to a message, with each serializer.", "quantifier": "all messages, all prefixes", "why_tests_cant": "Any message and any cut.", "anchors": ["wampproto/serializers/json.py", "wampproto/serializers/msgpack.py", "wampproto/serializers/cbor.py"]}
{"id": "C84", "title": "A received message can be sent on with the same serializer", "statement": "Every message obtained by deserialize (other than HELLO, WELCOME and ABORT, whose fields are filtered) can be serialized with the same serializer, and deserializing the result gives an equal message.", "quantifier": "all byte strings that deserialize", "why_tests_cant": "Received payloads are chosen by the peer.", "anchors": ["wampproto/serializers/json.py", "wampproto/serializers/msgpack.py", "wampproto/serializers/cbor.py"]}
{"id": "C85", "title": "A received message can be sent on with another serializer", "statement": "A message received with one serializer can be serialized with each of the others and arrives equal, as needed by a router whose clients use different serializers.", "quantifier": "all messages, all pairs of serializers", "why_tests_cant": "Received payloads are chosen by the peer.", "anchors": ["wampproto/serializers/json.py", "wampproto/serializers/msgpack.py", "wampproto/serializers/cbor.py"]}
{"id": "C86", "title": "A recorded WAMP-CRA answer is good for one challenge only", "statement": "If one and the same AUTHENTICATE message is welcomed in two WAMP-CRA handshakes, then both challenges had the same nonce, timestamp, session id, authid, authrole and secret, or two different (secret, challenge) pairs of these handshakes have the same HMAC.", "quantifier": "all pairs of acceptor executions", "why_tests_cant": "Quantifies over pairs of handshakes and all their messages.", "anchors": ["wampproto/acceptor.py", "wampproto/auth/wampcra.py"]}
{"id": "C87", "title": "The WAMP-CRA challenge is JSON text with exactly its seven fields", "statement": "generate_wampcra_challenge returns ASCII JSON text that json.loads turns into a dict with exactly nonce, authprovider, authid, authrole, authmethod, session and timestamp, each with the value given, whatever characters the values contain.", "quantifier": "all valid strings, nonces and session ids", "why_tests_cant": "Escaping must work for every text.", "anchors": ["wampproto/auth/wampcra.py"]}
{"id": "C88", "title": "Messages over a RawSocket stream arrive in order however the stream is cut", "statement": "If messages are serialized, framed and concatenated, then from any received prefix of the octet stream the receiver obtains exactly a prefix of the messages, in order and equal to what was sent, and all of them once everything has arrived.", "quantifier": "all message sequences, all prefixes, all three serializers", "why_tests_cant": "All sequences and all cut points.", "anchors": ["wampproto/transports/rawsocket.py", "wampproto/serializers"]}
{"id": "C89", "title": "Validation helpers accept exactly the valid values", "statement": "validate_realm_or_raise, validate_uri_or_raise and validate_procedure_or_raise return their argument iff it is a str; validate_details_or_raise iff it is a dict with str keys (naming the first other key); validate_session_id_or_raise iff it is an int, not a bool, between 1 and 2**53. Otherwise they raise the exception class of their kind, with the caller's text in the message.", "quantifier": "all values", "why_tests_cant": "The argument is any object.", "anchors": ["wampproto/messages/util.py:29-83"]}
{"id": "C90", "title": "Equality of SessionDetails", "statement": "details == x holds iff x is a SessionDetails with equal session id, realm, authid and authrole; == is an equivalence on details and False for any other object.", "quantifier": "all details and objects", "why_tests_cant": "Equivalence laws quantify over triples.", "anchors": ["wampproto/types.py:29-38"]}
{"id": "C91", "title": "Text of an ApplicationError", "statement": "str(ApplicationError(message, args, kwargs)) starts with the message, is the message alone iff there are no args and kwargs, and contains str(a) of every arg and key=value of every kwarg.", "quantifier": "all messages, args and kwargs", "why_tests_cant": "Any number of args and kwargs.", "anchors": ["wampproto/exception.py:12-23"]}
{"id": "C92", "title": "Challenge time stamps", "statement": "utcnow() is 24 ASCII characters and comparing two such texts compares the times, to the millisecond.", "quantifier": "all pairs of times with four-digit years", "why_tests_cant": "All pairs of times.", "anchors": ["wampproto/auth/wampcra.py:49-51"]}
{"id": "C93", "title": "A generated key pair works on both sides", "statement": "A CryptoSignAuthenticator built from the private key of generate_cryptosign_keypair announces the public key of the pair, and what it signs verifies under that key.", "quantifier": "all seeds and challenges", "why_tests_cant": "All seeds and challenges.", "anchors": ["wampproto/auth/cryptosign.py:53-60"]}
{"id": "C94", "title": "Marshalling does not change the caller's dicts", "statement": "Marshalling messages leaves the option and details dicts they were built with unchanged, so what a message marshals to does not depend on which messages sharing a dict with it were marshalled before.", "quantifier": "all sequences of messages and all ways of sharing dicts", "why_tests_cant": "Depends on aliasing between messages.", "anchors": ["wampproto/messages/call.py:125-130", "wampproto/messages/invocation.py:124-129", "wampproto/messages/result.py:101-106", "wampproto/messages/yield_.py:101-106"]}
{"id": "C95", "title": "Clients with different serializers see the same conversation", "statement": "With links that carry bytes, where every client uses JSON, MsgPack or CBOR and sends messages with ids in 1..2**53 and contents all three formats carry, every delivery shows exactly the message, and receive returns or raises exactly what it would, had the links carried message objects (sent in normal form: args None before kwargs is []).", "quantifier": "all schedules, any number of clients and any assignment of serializers", "why_tests_cant": "Any interleaving and mixture of serializers.", "anchors": ["wampproto/session.py:20-53", "wampproto/serializers/json.py:9-18", "wampproto/serializers/msgpack.py:9-18", "wampproto/serializers/cbor.py:9-18", "wampproto/broker.py:46-101", "wampproto/dealer.py:67-194"]}
{"id": "C96", "title": "Over bytes, the router never sends a client something it rejects", "statement": "In such a network, if no client reuses a request id within a connection, every delivered broker message is accepted by receive; for the dealer likewise if session ids are not reused and no progressive results are exchanged.", "quantifier": "all schedules of at most 2**53 steps", "why_tests_cant": "Any interleaving and mixture of serializers.", "anchors": ["wampproto/session.py:20-111", "wampproto/broker.py:46-101", "wampproto/dealer.py:67-194"]}
{"id": "C97", "title": "Over bytes, no request is lost", "statement": "In such a network, when nothing is in transit for a client any more, every SUBSCRIBE, acknowledged PUBLISH and REGISTER it sent while connected has been answered by a message that its receive accepted, and every CALL too unless the dealer still waits for the callee.", "quantifier": "all schedules of at most 2**53 steps", "why_tests_cant": "Any interleaving and mixture of serializers.", "anchors": ["wampproto/session.py:20-111", "wampproto/broker.py:46-101", "wampproto/dealer.py:67-194"]}
{"id": "C98", "title": "A publication reaches subscribers whatever serializer they use", "statement": "A well-formed message that the sender's serializer carries is delivered to every recipient.", "quantifier": "all messages and serializers", "why_tests_cant": "Pairs of formats with different value ranges.", "anchors": ["wampproto/broker.py:80-101", "wampproto/serializers/json.py:9-18", "wampproto/serializers/msgpack.py:9-18"]}
{"id": "C99", "title": "What a client receives goes back to what clients sent", "statement": "Every message delivered to a session has an origin: an acknowledgement answers a request of that session, with its request id; an EVENT carries the args and kwargs of a PUBLISH some session sent to a topic the recipient subscribed to, and empty details; an INVOCATION those of a CALL of a procedure the recipient registered; a RESULT those of a YIELD from a session that registered the procedure the recipient called; an ERROR is for a REGISTER or a CALL of the recipient and is one of the two errors of the dealer or copies an ERROR some session sent. Sending only counts while connected.", "quantifier": "all schedules, of objects and of bytes with mixed serializers, without bound on length; clients may send messages past WAMPSession", "why_tests_cant": "All interleavings.", "anchors": ["wampproto/broker.py:46-101", "wampproto/dealer.py:67-194", "wampproto/session.py:20-111"]}
{"id": "C100", "title": "A publication reaches every subscriber", "statement": "If a session holds a subscription (it sent SUBSCRIBE, received SUBSCRIBED with id i, and neither leaves nor asks to unsubscribe i) when another connected session sends PUBLISH to the same topic, then once nothing is in transit on the links of both, the subscriber has received and accepted an EVENT with subscription id i and the args and kwargs of the PUBLISH; if the publisher asked for an acknowledgement, it has received and accepted PUBLISHED with its request id and the publication id of that EVENT.", "quantifier": "all schedules in which the router handles at most 2^53 messages, any number of clients", "why_tests_cant": "All interleavings of all clients' actions between the PUBLISH and the EVENT.", "anchors": ["wampproto/broker.py:46-101", "wampproto/session.py:20-111"]}
{"id": "C101", "title": "Nothing arrives twice", "statement": "No session receives two EVENTs with the same publication id, and, when no CALL is made in several parts, no session receives two INVOCATIONs with the same request id; whatever the clients do, also across reconnections under the same session id.", "quantifier": "all schedules in which the router handles at most 2^53 messages; clients may send messages past WAMPSession", "why_tests_cant": "All interleavings; duplicates could need any number of steps.", "anchors": ["wampproto/broker.py:79-101", "wampproto/dealer.py:67-111", "wampproto/idgen.py"]}
{"id": "C102", "title": "A call reaches the callee and the answer reaches the caller", "statement": "If a session holds a registration when a connected session sends CALL for that procedure, then once nothing is in transit the holder has received and accepted an INVOCATION with that registration id and the call's args, kwargs and binary payload. If the holder answers that INVOCATION afterwards with one YIELD or ERROR and nobody sends another answer that the dealer would take for it (a second YIELD of the callee, or an ERROR of anyone; YIELDs of others are harmless), then once nothing is in transit the caller has received and accepted a RESULT or ERROR with the call's request id and the answer's args and kwargs, even if the callee has unregistered meanwhile.", "quantifier": "all schedules in which the router handles at most 2^53 messages without progressive results, any number of clients", "why_tests_cant": "All interleavings of all clients' actions between CALL and RESULT.", "anchors": ["wampproto/dealer.py:67-194", "wampproto/session.py:20-149"]}
{"id": "C103", "title": "sanity_check and parse on any object", "statement": "Every class's parse, applied to any Python object, returns a message exactly if the object is a list that conforms to the class's schema, and otherwise raises ValueError; for an object that is not a list the message names its type. sanity_check returns exactly if the object is a list whose length is in range and whose first element equals the message type; it raises IndexError only for an empty list when the minimum length is 0, and ValueError in all other cases.", "quantifier": "all objects, all 24 classes, all bounds", "why_tests_cant": "All objects.", "anchors": ["wampproto/messages/util.py:86-98", "wampproto/messages/validation_spec.py"]}
{"id": "C104", "title": "Key derivation accepts exactly valid parameters; sizes of keys and signatures", "statement": "With SHA-256, HMAC, PBKDF2 and Ed25519 as standardised: derive_cra_key returns a key exactly if salt is a str without lone surrogates, iterations an int (or bool) from 1 to 2**31-1, and keylen such an int or None; the key is base64 of exactly keylen octets (32 for None); otherwise it raises AttributeError (salt not a str), ValueError (a salt with lone surrogates, a parameter that is zero or negative), OverflowError (an int out of range) or TypeError (not an int). A WAMP-CRA client's answer to any challenge it answers is 44 ASCII characters; a Cryptosign client announces a public key of 64 hex digits and answers with 128 hex digits followed by the challenge.", "quantifier": "all parameter objects, secrets and challenges", "why_tests_cant": "All objects and all texts; the sizes hold for every message hashed.", "anchors": ["wampproto/auth/wampcra.py:20-46", "wampproto/auth/wampcra.py:70-72", "wampproto/auth/cryptosign.py:15-40"]}
{"id": "C105", "title": "A WAMP-CRA login succeeds only with the right secret", "statement": "With the real HMAC and any of the three serializers, a client that has the router's secret is welcomed and both sides agree on the session details; a client with another secret is refused.", "quantifier": "all realms, authids, roles, secrets, nonces, session ids", "why_tests_cant": "All secrets; the exception (a NUL appended to a short secret) is not in any test.", "anchors": ["wampproto/auth/wampcra.py:13-82", "wampproto/acceptor.py:114-182", "wampproto/joiner.py:35-76"]}
{"id": "C106", "title": "Messages arrive in the order in which they were sent", "statement": "For every session s the messages it receives can be attributed, each, to a message that a connected client sent earlier and that matches it (same request id, or same payload), such that of two messages attributed to one and the same client the one received first was sent first; one sent message leads to at most one message to s, except that a publisher may get PUBLISHED and then its own EVENT. In particular the EVENT of a later publication of a client never arrives before that of an earlier one.", "quantifier": "all schedules (of any length), any number of clients; clients may send messages past WAMPSession", "why_tests_cant": "All interleavings of all clients' actions.", "anchors": ["wampproto/broker.py:46-101", "wampproto/dealer.py:67-194", "wampproto/session.py:20-111"]}
{"id": "C107", "title": "Publication ids increase; subscribers agree on the order", "statement": "The publication ids of the EVENTs that a session receives strictly increase in the order of arrival, and so do the request ids of INVOCATIONs when no CALL is made in several parts. Two sessions never receive two publications in different orders.", "quantifier": "all schedules in which the router handles at most 2^53 messages; clients may send messages past WAMPSession", "why_tests_cant": "All interleavings; a pair of sessions, a pair of publications.", "anchors": ["wampproto/broker.py:79-101", "wampproto/dealer.py:67-111", "wampproto/idgen.py"]}
{"id": "C108", "title": "Delivery and order over bytes with mixed serializers", "statement": "C100, C102, C106 and C107 also hold when every client uses its own serializer (JSON, MessagePack or CBOR) and links carry bytes, for messages that all three serializers carry; payloads arrive unchanged except that args None before kwargs arrives as [].", "quantifier": "all schedules in which the router handles at most 2^53 messages (order: of any length), any number of clients, any choice of serializers", "why_tests_cant": "All interleavings and all combinations of serializers.", "anchors": ["wampproto/serializers/", "wampproto/session.py:20-111", "wampproto/broker.py:46-101", "wampproto/dealer.py:67-194"]}
{"id": "C109", "title": "When clients fall silent, the network comes to rest and everybody is answered", "statement": "From every reachable state, once clients send nothing, only boundedly many routing and delivery steps are possible, in whatever order; when none is possible any more, no connected client has anything in transit, and every SUBSCRIBE, acknowledged PUBLISH and REGISTER of a client that stayed has been answered, and every CALL has been answered or waits for the callee.", "quantifier": "all schedules, any number of clients, any order of the remaining steps (answers: at most 2^53 messages handled by the router, no request id used twice)", "why_tests_cant": "All reachable states and all orders.", "anchors": ["wampproto/session.py:20-149", "wampproto/broker.py:46-101", "wampproto/dealer.py:67-194"]}
{"id": "C110", "title": "Events and invocations only while subscribed or registered", "statement": "A client receives an EVENT only after it received a SUBSCRIBED with the event's subscription id, during the same connection, and before it receives the UNSUBSCRIBED that ends this subscription; likewise INVOCATION, REGISTERED and UNREGISTERED.", "quantifier": "all schedules in which the router handles at most 2^53 messages in which no client uses a request id twice (invocations: also no session id twice, no progressive results)", "why_tests_cant": "All interleavings of unsubscribing and publishing.", "anchors": ["wampproto/session.py:20-149", "wampproto/broker.py:46-101", "wampproto/dealer.py:67-194"]}
{"id": "C111", "title": "Nesting limits change nothing but the exception", "statement": "Whatever recursion limit the interpreter has, deserialize of the JSON and the CBOR serializer gives the same as without limit, or RecursionError; a serialized JSON message is rejected exactly when it has more lists and dicts inside each other than the limit, so a peer can always provoke RecursionError, which is not a documented exception. The MsgPack unpacker accepts exactly 1024 nested lists and raises ValueError beyond.", "quantifier": "all limits, all byte strings, all messages", "why_tests_cant": "All limits and all inputs; a test fixes one of each.", "anchors": ["wampproto/serializers/json.py:13-16", "wampproto/serializers/msgpack.py", "wampproto/serializers/cbor.py"]}
{"id": "C112", "title": "The JSON serializer on bytes", "statement": "Given bytes instead of str, deserialize of the JSON serializer gives the same message for the UTF-8, UTF-16 and UTF-32 encodings (either byte order, with or without byte-order mark) of a serialized message as for the text itself; every text that gives a message gives the same message as bytes in each of these encodings (UTF-16: if no high surrogate stands directly before a low one); and any bytes give a message or ValueError, TypeError or IndexError.", "quantifier": "all messages, all byte strings, all ten encodings", "why_tests_cant": "The input space is unbounded.", "anchors": ["wampproto/serializers/json.py:13-16", "wampproto/serializers/payload.py:88-98"]}
{"id": "C113", "title": "What a client can rely on does not depend on the other clients", "statement": "For a client that uses no request id twice (RPC: is also admitted only once and gets no progressive results): every message for it is accepted, every request of it that can be answered is answered, publications reach its subscriptions, calls between two such clients go through, and EVENT and INVOCATION come only while it is subscribed or registered - whatever the other clients do: reuse request ids, join again, answer progressively, unsubscribe what they do not hold, or do not use WAMPSession at all and send any messages in any order.", "quantifier": "all schedules in which the router handles at most 2^53 messages, any number of other clients, nothing assumed of them", "why_tests_cant": "All behaviours of all other clients, interleaved in all ways.", "anchors": ["wampproto/session.py:20-149", "wampproto/broker.py:46-101", "wampproto/dealer.py:67-194"]}
{"id": "C114", "title": "Clients of this library keep their guarantees beside hostile clients", "statement": "When links carry bytes and some connections are held by clients that put arbitrary bytes on their links and use serializers of their own, a client of this library that uses no request id twice (RPC: is also admitted once and asks for no progressive results) still keeps its guarantees: whatever reaches it either cannot be deserialized or is accepted; its SUBSCRIBE, acknowledged PUBLISH, REGISTER, UNSUBSCRIBE and UNREGISTER are answered; publications of other clients of this library reach its subscriptions intact; and a call between two clients of this library returns the reply of the callee, unless someone else sends a message that ends the invocation.", "quantifier": "all schedules in which the router takes at most 2^53 items from its links, any number of hostile clients, all bytes, all serializers of theirs", "why_tests_cant": "All byte strings at all points of all interleavings.", "anchors": ["wampproto/session.py:20-149", "wampproto/serializers/json.py:9-16", "wampproto/serializers/msgpack.py:9-16", "wampproto/serializers/cbor.py:9-16", "wampproto/broker.py:46-101", "wampproto/dealer.py:67-194"]}
{"id": "C115", "title": "Hostile clients cannot keep the network busy", "statement": "Whatever bytes clients have put on their links, once nobody sends any more the router and the links take only a bounded number of further steps, in whatever order (each item on its way to the router causes at most two messages per connected client), and these steps disconnect nobody; they can always be continued until no link has anything left, and then every SUBSCRIBE, acknowledged PUBLISH and REGISTER of a still connected client of this library that reuses no request id has been answered.", "quantifier": "all schedules (answers: the router takes at most 2^53 items), any number of hostile clients, all bytes, all orders of the remaining steps", "why_tests_cant": "All byte strings and all interleavings; a bound on every continuation.", "anchors": ["wampproto/broker.py:46-101", "wampproto/dealer.py:67-194", "wampproto/session.py:20-149"]}
{"id": "C116", "title": "Hostile clients cannot make events or invocations arrive without a subscription or registration", "statement": "When links carry bytes and other clients put arbitrary bytes on theirs, an EVENT (INVOCATION) that reaches a client of this library carries the id of a subscription (registration) that the router gave it during this connection and that has not been confirmed ended to it since.", "quantifier": "all schedules in which the router takes at most 2^53 items from its links, any number of hostile clients, all bytes", "why_tests_cant": "All byte strings at all points of all interleavings.", "anchors": ["wampproto/broker.py:46-101", "wampproto/dealer.py:67-194", "wampproto/session.py:106-149"]}
{"id": "C117", "title": "WAMP-CRA answers are HMAC-SHA256 and PBKDF2 as standardised", "statement": "A WAMP-CRA client answers a CHALLENGE exactly if its challenge is a str without lone surrogates and, when there is a salt, iterations and keylen are present and valid; the answer is base64 (RFC 4648) of HMAC-SHA256 (RFC 2104, FIPS 180-4) of the challenge, under the secret or, with a salt, under the base64 text of the PBKDF2 key (RFC 8018) of the secret. The router's check accepts exactly the ASCII texts that base64.b64decode decodes to that HMAC.", "quantifier": "all secrets, challenges, signatures and challenge details", "why_tests_cant": "Every input length and content, including keys longer than a block and multi-block keys; a wrong constant, padding or digit shows only for some inputs.", "anchors": ["wampproto/auth/wampcra.py:20-46", "wampproto/auth/wampcra.py:70-82"]}
{"id": "C118", "title": "Cryptosign keys and signatures are Ed25519 as standardised", "statement": "The public key that a Cryptosign client announces is the hex text of the RFC 8032 public key of its private key; sign_cryptosign_challenge answers exactly the challenges that are hex texts (either case), with the hex text of the RFC 8032 signature of the challenge's octets followed by the challenge; verify_cryptosign_signature accepts exactly the hex texts of a 64-octet signature followed by a message such that the check of RFC 8032 holds as libsodium makes it: R and the key are canonical encodings of curve points of no small order, s is below the group order, and R + kA = sB.", "quantifier": "all private keys, challenges, texts and public keys", "why_tests_cant": "All keys and messages: a carry lost in the field arithmetic or a wrong constant shows only for some inputs; the group law has to hold for all points.", "anchors": ["wampproto/auth/cryptosign.py:15-21", "wampproto/auth/cryptosign.py:38-50"]}
{"id": "C119", "title": "Cryptosign logins succeed exactly when the announced key accepts", "statement": "With Ed25519, a client that announces the key of its own private key is welcomed over JSON, MsgPack and CBOR, and both sides report the same session, unless the nonce of the signature (SHA-512 of the second half of the hashed seed and the challenge) is a multiple of the group order, in which case it is refused. A client that announces any other key is welcomed or refused as that key accepts or not; a signature made with one private key for one message is accepted under the key of another and for another message exactly if the two hashes times the two secret scalars agree modulo the group order.", "quantifier": "all private keys, challenges, announced keys, serializers; all messages and keys", "why_tests_cant": "Needs that every signature of every key verifies: the group law, the order of the base point and the primality of both moduli.", "anchors": ["wampproto/auth/cryptosign.py:15-50", "wampproto/acceptor.py:98-117", "wampproto/acceptor.py:143-157", "wampproto/joiner.py:35-76"]}
{"id": "C120", "title": "A Cryptosign signature cannot be altered in its second half", "statement": "For one public key, one message and one first half of a signature, verify_cryptosign_signature accepts at most one second half.", "quantifier": "all public keys, messages and signatures", "why_tests_cant": "2^256 second halves; holds only because the base point has prime order and s is checked to be below it.", "anchors": ["wampproto/auth/cryptosign.py:43-50"]}
{"id": "C121", "title": "CBOR messages follow RFC 8949", "statement": "deserialize of the CBOR serializer reads every data item of RFC 8949 (any integer width, definite and indefinite lengths, chunked strings, half, single and double floats, bignums) as the value it stands for, so a message is read from any of its encodings; whatever it reads begins with such an item, or with one of the few additions cbor2 makes (a one-octet simple value below 32, a stray break); serialize writes such an item; no octets stand for two values.", "quantifier": "all values, all byte strings, all messages", "why_tests_cant": "Each value has unboundedly many encodings (chunks, widths, open lengths, nested in each other), and exactness is about all byte strings.", "anchors": ["wampproto/serializers/cbor.py:9-15"]}
{"id": "C122", "title": "MsgPack messages follow the MessagePack specification", "statement": "deserialize of the MsgPack serializer accepts exactly the objects of the MessagePack specification, in any of their formats, nested at most 1024 deep whose texts are UTF-8 and whose keys are texts or byte strings, each as the value it stands for; serialize writes such an object; no octets stand for two values.", "quantifier": "all values, all byte strings, all messages", "why_tests_cant": "Exactness is about all byte strings; each value has many encodings.", "anchors": ["wampproto/serializers/msgpack.py:9-15"]}
{"id": "C123", "title": "JSON messages follow RFC 8259", "statement": "deserialize of the JSON serializer accepts exactly the texts of the RFC 8259 grammar and the three words NaN, Infinity and -Infinity, with any whitespace, escapes (surrogate pairs included) and spellings of numbers (integers of at most 4300 digits); a number with fraction or exponent is read as the nearest binary64 number, ties to even. serialize writes an RFC 8259 text of the value, if there is no NaN or infinity in it; no text stands for two values.", "quantifier": "all values, all texts, all messages", "why_tests_cant": "Exactness is about all texts; rounding is wrong for few numbers only (halfway cases, subnormals).", "anchors": ["wampproto/serializers/json.py:9-15"]}
{"id": "C124", "title": "Which payloads deserialize_payload accepts", "statement": "Payload decoding gives args and kwargs exactly for the payloads: nothing, an empty container, args alone, or args and kwargs, where the container may be a list or, because Python indexes both alike, a dict whose keys equal 0 (and 1; True, 1.0 and -0.0 count as such). More than two elements raise ValueError, everything else TypeError, except that a dict without the key raises KeyError. For CBOR and MsgPack this is stated for all octets through the format standards of C121 and C122, for JSON for the octets of all JSON texts.", "quantifier": "all Python values; all byte strings; all JSON texts", "why_tests_cant": "All values of all types as payload; equality of numeric keys across types and all encodings of each payload.", "anchors": ["wampproto/serializers/payload.py:10-27", "wampproto/serializers/payload.py:51-57", "wampproto/serializers/payload.py:68-74", "wampproto/serializers/payload.py:85-91", "wampproto/serializers/payload.py:94-105"]}
{"id": "C125", "title": "How a peer spells a message makes no difference", "statement": "Octets that stand for the same value in a serializer's format (any of the many encodings that CBOR, MessagePack and JSON allow: longer heads, indefinite lengths, spaces, escapes) have the same effect: any spelling of a well-formed message deserializes to it; session, joiner, acceptor and payload decoder end in the same state with the same result; and in a network of clients that send any octets, respelling the octets of any client changes nothing that a client is sent or shown and nothing in the router.", "quantifier": "all values and messages; all spellings; all sessions, joiners and acceptors in any state; all executions of the network", "why_tests_cant": "A value has infinitely many encodings, and the claim is about whole executions of a network with arbitrary clients.", "anchors": ["wampproto/serializers/cbor.py:13-15", "wampproto/serializers/msgpack.py:13-15", "wampproto/serializers/json.py:13-15", "wampproto/session.py:51-53", "wampproto/joiner.py:52-57", "wampproto/acceptor.py:47-53"]}
{"id": "C126", "title": "Decoding does not blow up", "statement": "Whatever octets are received, the value decoded from them by any of the three serializers takes no more memory (counting one for every value, element and key and one for every octet of texts, byte strings and integers) than there are octets; the same for the list that a deserialized message is marshalled to, and for the args and kwargs of a decoded payload.", "quantifier": "all byte strings; the three serializers", "why_tests_cant": "A bound over all inputs: decompression-bomb-like inputs are exactly those that a test does not contain.", "anchors": ["wampproto/serializers/cbor.py:13-15", "wampproto/serializers/msgpack.py:13-15", "wampproto/serializers/json.py:13-15", "wampproto/serializers/payload.py:10-27"]}
{"id": "C127", "title": "Floats are written in JSON with the fewest digits", "statement": "The JSON serializer writes every finite float as a numeral that reads back as exactly that float, in at most 17 digits and at most 24 octets; no numeral that reads back as that float has fewer digits, and none with as few digits is nearer to it.", "quantifier": "all finite 64-bit floats", "why_tests_cant": "There are 2^64 floats, and minimality is a claim about all other numerals.", "anchors": ["wampproto/serializers/json.py:9-12"]}
{"id": "C128", "title": "The router does not amplify", "statement": "If nothing that clients send, whoever wrote them, is longer than M octets, no message that the router sends is longer than 28(2M+40) octets (9(2M+40) to a client that uses CBOR or MessagePack); one message makes the router send at most two messages to its sender and at most one to any other client.", "quantifier": "all executions of the network with any number of clients of the library and clients that send any octets, each with any of the three serializers; all M", "why_tests_cant": "A bound over all executions; a request id or option smuggled from one client's message into another's could only be found by trying all.", "anchors": ["wampproto/broker.py:46-101", "wampproto/dealer.py:67-194", "wampproto/serializers/cbor.py:9-13", "wampproto/serializers/msgpack.py:9-13", "wampproto/serializers/json.py:9-12"]}
{"id": "C129", "title": "Objects of other classes do not disturb the rest of a message", "statement": "cbor2, msgpack and json may treat objects outside the data model of messages (datetimes, UUIDs, ExtTypes, semantic tags, containers as keys) in any way: data without them is written and read as if there were no such objects, messages without them survive, and the type code and the ids at the front of a message with them survive whenever the message arrives at all.", "quantifier": "all behaviours of the libraries on such objects; all values and messages", "why_tests_cant": "Tests run with one version of the libraries and a handful of objects.", "anchors": ["wampproto/serializers/cbor.py:9-16", "wampproto/serializers/msgpack.py:9-16", "wampproto/serializers/json.py:9-16"]}
{"id": "C130", "title": "A rejected message changes nothing", "statement": "If the acceptor, the joiner or the dealer raises on a message, or the acceptor answers a HELLO by ABORT, then whatever it is given afterwards, it answers as if that message had never arrived, and it says the same about the session.", "quantifier": "all histories, rejected messages, environments and continuations", "why_tests_cant": "Every continuation of every history: a field left behind by a rejected HELLO shows only in some later exchange.", "anchors": ["wampproto/acceptor.py:47-207", "wampproto/joiner.py:35-76", "wampproto/dealer.py:31-187"]}
{"id": "C131", "title": "No name is special and payloads are not looked at", "statement": "Rename all sessions and all topics and procedures one-to-one and replace the payloads of all messages in any way: broker and dealer then return the same as before with the names and payloads replaced, and raise exceptions of the same classes. So no session id, topic or procedure is treated specially, and routing never depends on a payload.", "quantifier": "all one-to-one renamings, all functions on payloads, all sequences of calls", "why_tests_cant": "A special case for one id, prefix or payload is invisible to tests that do not happen to use it.", "anchors": ["wampproto/broker.py:14-101", "wampproto/dealer.py:27-194"]}
{"id": "C132", "title": "Broker and dealer do exactly what a one-page reference router does", "statement": "After any sequence of calls, every further call on the broker (or dealer) returns exactly what a small reference broker (dealer) returns that keeps only the members, the subscriptions (registrations, open calls) and the number of ids handed out; where the reference refuses, the code raises a ValueError. Nothing else is remembered: two histories that leave the reference in the same state are never told apart later, and a broker which everyone has left differs from a new one only in the ids it gives next.", "quantifier": "all sequences of at most 2^53 calls (ids then wrap, C49), all further calls", "why_tests_cant": "Agreement with the reference in every reachable state, including hidden leftovers of former sessions, covers unboundedly many histories.", "anchors": ["wampproto/broker.py:14-101", "wampproto/dealer.py:27-194"]}
{"id": "C133", "title": "Challenges, nonces and session ids cannot be predicted", "statement": "From the challenges or nonces seen so far, nobody can compute the ones that follow. (They come from Python's `random`, a Mersenne twister: refuted. Whoever sees 78 cryptosign challenges in a row, or 156 WAMP-CRA nonces, obtains a copy of the generator and with it every later challenge, nonce and session id of the process.)", "quantifier": "all states of the generator, all earlier and later sequences of draws", "why_tests_cant": "Outputs look random to any test; that they are determined is a fact about the generator in all its states.", "anchors": ["wampproto/auth/cryptosign.py:33-35", "wampproto/auth/wampcra.py:54-67", "wampproto/idgen.py:6-7"]}
{"id": "C134", "title": "Form of challenges, nonces and session ids", "statement": "Every cryptosign challenge is the lower-case hex text of exactly 32 bytes, every WAMP-CRA nonce that of 16 bytes, and every session id generated lies in 1..2^53, whatever the state of the random generator.", "quantifier": "all states of the generator, any number of rejected attempts", "why_tests_cant": "The generator has 2^19968 states; leading zeros and the limits of the id range come up too rarely to be sampled.", "anchors": ["wampproto/auth/cryptosign.py:33-35", "wampproto/auth/wampcra.py:54-55", "wampproto/idgen.py:3-7"]}
{"id": "C135", "title": "Dict keys survive the serializers", "statement": "A message whose dicts have keys that are not strings arrives as it was sent. (Refuted: the JSON serializer writes None, bool, int and float keys as the strings that it writes for these values elsewhere, at every depth, so the receiver gets exactly the message with those strings as keys, and loses an entry when two keys have the same string; MsgPack's receiver raises ValueError; CBOR keeps the keys.)", "quantifier": "all values and messages a Python program can build", "why_tests_cant": "Which of the unboundedly many keys and nestings change, and that nothing else does, is a statement about all values.", "anchors": ["wampproto/serializers/json.py:9-15", "wampproto/serializers/msgpack.py:9-15", "wampproto/serializers/cbor.py:9-15"]}
{"id": "C136", "title": "A session looks at nothing but types, ids and the acknowledge option", "statement": "Take two client sessions and two histories of sent and received messages in which corresponding messages have the same type (an ERROR also the same request type, a PUBLISH the same truth value of acknowledge), and corresponding ids of each sort (call, publish, register, unregister, subscribe, unsubscribe and invocation requests, registrations, subscriptions) are matched by a one-to-one renaming, each sort on its own. URIs, options, details, payloads and the serializers may differ, and serialization may fail in one and not in the other. Then both sessions accept or refuse the next message alike, on receiving and on sending.", "quantifier": "all pairs of histories, all one-to-one renamings of ids per sort, all messages, all pairs of serializers", "why_tests_cant": "relates every history to every renamed one; a test runs single histories", "anchors": ["wampproto/session.py:WAMPSession.send_message", "wampproto/session.py:WAMPSession.receive_message"]}
{"id": "C137", "title": "Sends and arrivals may overtake each other, a request and its answer excepted", "statement": "If an application sends through a session while messages arrive, the order in which a send and an arrival reach the session makes no difference, unless the two messages are about the same request (same kind and id): both have the same outcome, including the exception, and the session behaves the same ever after. Hence all interleavings of given sends with given arrivals, none about the same request, agree on which messages are taken and refused and on everything later.", "quantifier": "all histories, all sent and received messages, all serializers, all interleavings", "why_tests_cant": "ranges over all interleavings of unbounded sequences", "anchors": ["wampproto/session.py:WAMPSession.send_message", "wampproto/session.py:WAMPSession.receive_message"]}
{"id": "C138", "title": "All violations are reported whatever the size of the ints", "statement": "parse reports all violations of a list, also when it contains very large ints. (Refuted: CPython refuses to write an int of more than 4300 digits as text, so a CALL with such a request id and two more violations raises a ValueError that only says so. What holds: lists whose ints can be written give the same result as described in C01-C05; the lists that are accepted, and the messages, are the same with and without the limit; and the only other exception is that ValueError.)", "quantifier": "all lists, all 24 classes, all ints", "why_tests_cant": "ranges over all values and all combinations of violations", "anchors": ["wampproto/messages/util.py:validate_id_or_raise", "wampproto/messages/util.py:validate_roles", "wampproto/messages/util.py:sanity_check", "wampproto/messages/util.py:validate_message"]}
