{
 "claims": [
  {
   "property": "C01",
   "status": "proved",
   "theorems": [
    "C01_round_trip"
   ],
   "note": ""
  },
  {
   "property": "C02",
   "status": "proved",
   "theorems": [
    "C02_parse_accepts_schema"
   ],
   "note": ""
  },
  {
   "property": "C03",
   "status": "proved",
   "theorems": [
    "C03_parsed_fields"
   ],
   "note": ""
  },
  {
   "property": "C04",
   "status": "proved",
   "theorems": [
    "C04_exception_discipline"
   ],
   "note": ""
  },
  {
   "property": "C05",
   "status": "proved",
   "theorems": [
    "C05_all_violations"
   ],
   "note": "Proved of lists whose ints can be written as text; for ints of more than 4300 digits see C138."
  },
  {
   "property": "C06",
   "status": "proved",
   "theorems": [
    "C06_remarshal"
   ],
   "note": ""
  },
  {
   "property": "C07",
   "status": "proved",
   "theorems": [
    "C07_dispatch"
   ],
   "note": ""
  },
  {
   "property": "C08",
   "status": "partial",
   "theorems": [
    "C08_abort_args_refuted",
    "C08_abort_partial"
   ],
   "note": "False of the code: Abort.marshal drops args/kwargs (refuted with witness); details and reason survive."
  },
  {
   "property": "C09",
   "status": "partial",
   "theorems": [
    "C09_bool_id_refuted",
    "C09_ids_partial"
   ],
   "note": "False of the code: True is accepted as an id (refuted with witness); partial: nothing else but ints in range and True."
  },
  {
   "property": "C10",
   "status": "proved",
   "theorems": [
    "C10_msgpack",
    "C10_cbor",
    "C10_json",
    "C10_injective",
    "C10_serializer_round_trip"
   ],
   "note": "For any codec that round-trips the message (C10_serializer...) and, without any hypothesis on the codec, for models of json, msgpack and cbor2 (C10_json, C10_msgpack, C10_cbor) with the exact domain of each format (SpecCodec.v)."
  },
  {
   "property": "C11",
   "status": "proved",
   "theorems": [
    "C11_python",
    "C11_payload_round_trip",
    "C11_payload_encodes",
    "C11_unknown_serializer"
   ],
   "note": "For any lawful codec and for the modelled json (given bytes), msgpack and cbor2 (C11_python)."
  },
  {
   "property": "C12",
   "status": "proved",
   "theorems": [
    "C12_none_payload"
   ],
   "note": ""
  },
  {
   "property": "C13",
   "status": "proved",
   "theorems": [
    "C13_decode"
   ],
   "note": ""
  },
  {
   "property": "C14",
   "status": "partial",
   "theorems": [
    "C14_binary_payload_refuted",
    "C14_serializer_id_partial"
   ],
   "note": "False of the code: payload bytes are never marshalled (refuted); partial: the serializer id survives."
  },
  {
   "property": "C15",
   "status": "proved",
   "theorems": [
    "C15_header_round_trip"
   ],
   "note": ""
  },
  {
   "property": "C16",
   "status": "partial",
   "theorems": [
    "C16_max_length_refuted",
    "C16_length_mod_partial"
   ],
   "note": "False of the code: length 2**24 (PROTOCOL_MAX_MSG_SIZE) is framed as length 0 (refuted); partial: every length below 2**24."
  },
  {
   "property": "C17",
   "status": "proved",
   "theorems": [
    "C17_handshake"
   ],
   "note": ""
  },
  {
   "property": "C18",
   "status": "partial",
   "theorems": [
    "C18_reserved_refuted",
    "C18_malformed_partial"
   ],
   "note": "False of the code: the reserved-octet test uses `and`, so one non-zero reserved octet is accepted (refuted); partial: everything else is rejected."
  },
  {
   "property": "C19",
   "status": "proved",
   "theorems": [
    "C19_framed_streams"
   ],
   "note": ""
  },
  {
   "property": "C20",
   "status": "proved",
   "theorems": [
    "C20_ids"
   ],
   "note": ""
  },
  {
   "property": "C21",
   "status": "proved",
   "theorems": [
    "C21_since_meaning",
    "C21_C25_decisions",
    "C21_result",
    "C21_error",
    "C21_at_most_once"
   ],
   "note": ""
  },
  {
   "property": "C22",
   "status": "proved",
   "theorems": [
    "C22_registered",
    "C22_unregistered",
    "C22_errors",
    "C22_invocation"
   ],
   "note": ""
  },
  {
   "property": "C23",
   "status": "proved",
   "theorems": [
    "C23_subscribed",
    "C23_unsubscribed",
    "C23_errors",
    "C23_event"
   ],
   "note": ""
  },
  {
   "property": "C24",
   "status": "proved",
   "theorems": [
    "C24_yield",
    "C24_at_most_once"
   ],
   "note": ""
  },
  {
   "property": "C25",
   "status": "proved",
   "theorems": [
    "C25_published",
    "C25_error",
    "C25_at_most_once"
   ],
   "note": ""
  },
  {
   "property": "C26",
   "status": "partial",
   "theorems": [
    "C26_receive_refuted",
    "C26_send_refuted",
    "C26_receive_partial",
    "C26_send_partial"
   ],
   "note": "False of the code: a rejected UNREGISTERED/UNSUBSCRIBED consumes the request, and send_message records the request before a failing serialization (both refuted); partial: in all other cases the session is unchanged."
  },
  {
   "property": "C27",
   "status": "partial",
   "theorems": [
    "C27_progressive_refuted",
    "C27_first_result_partial"
   ],
   "note": "False of the code: every RESULT ends the request, also a progressive one (refuted); partial: exactly the first RESULT is accepted."
  },
  {
   "property": "C28",
   "status": "proved",
   "theorems": [
    "C28_kinds_independent"
   ],
   "note": ""
  },
  {
   "property": "C29",
   "status": "proved",
   "theorems": [
    "C29_send_returns",
    "C29_peer_receives",
    "C29_undecodable"
   ],
   "note": ""
  },
  {
   "property": "C30",
   "status": "proved",
   "theorems": [
    "C30_details_iff",
    "C30_no_details",
    "C30_welcome_iff",
    "C30_hello_sent",
    "C30_receive_bytes",
    "C30_receive_undecodable",
    "C30_others_refused"
   ],
   "note": ""
  },
  {
   "property": "C31",
   "status": "proved",
   "theorems": [
    "C31_challenge_iff",
    "C31_at_most_once_per_hello",
    "C31_authenticator_raises"
   ],
   "note": "If the authenticator raises, the exception propagates and the joiner still awaits a challenge."
  },
  {
   "property": "C32",
   "status": "proved",
   "theorems": [
    "C32_abort_raises",
    "C32_abort_bytes"
   ],
   "note": ""
  },
  {
   "property": "C33",
   "status": "partial",
   "theorems": [
    "C33_abort_final_refuted",
    "C33_abort_no_effect",
    "C33_abort_final_partial"
   ],
   "note": "False of the code: ABORT leaves the joiner's state as it is, so a later WELCOME is accepted (refuted); partial: an ABORT that arrives when no WELCOME is awaited."
  },
  {
   "property": "C34",
   "status": "proved",
   "theorems": [
    "C34_welcome_justified",
    "C34_grounds_suffice"
   ],
   "note": "Soundness and completeness; crypto primitives, randomness, clock and a stateful authenticator are arbitrary."
  },
  {
   "property": "C35",
   "status": "proved",
   "theorems": [
    "C35_one_welcome",
    "C35_after_welcome"
   ],
   "note": ""
  },
  {
   "property": "C36",
   "status": "proved",
   "theorems": [
    "C36_details_iff",
    "C36_established_iff",
    "C36_no_details"
   ],
   "note": ""
  },
  {
   "property": "C37",
   "status": "proved",
   "theorems": [
    "C37_hello_order",
    "C37_authenticate_order",
    "C37_hello_reply"
   ],
   "note": ""
  },
  {
   "property": "C38",
   "status": "proved",
   "theorems": [
    "C38_sign_verifies",
    "C38_verify_exact",
    "C38_verify_answers",
    "C38_base64_round_trip",
    "C38_signature_text",
    "C38_verify_text"
   ],
   "note": ""
  },
  {
   "property": "C39",
   "status": "proved",
   "theorems": [
    "C39_sign_verifies",
    "C39_generated_is_hex",
    "C39_verify_exact",
    "C39_generated_text",
    "C39_signature_text",
    "C39_verify_text"
   ],
   "note": "Ed25519 correctness is an explicit hypothesis."
  },
  {
   "property": "C40",
   "status": "partial",
   "theorems": [
    "C40_cryptosign_replay_refuted",
    "C40_wampcra_bound_partial"
   ],
   "note": "False of the code for cryptosign: the signed challenge is not compared with the one sent, so a recorded AUTHENTICATE is accepted in any later handshake (refuted for every correct Ed25519); partial: WAMP-CRA is bound to the challenge. See C86 for the pair of handshakes."
  },
  {
   "property": "C41",
   "status": "partial",
   "theorems": [
    "C41_abort_final_refuted",
    "C41_ticket_guessing_refuted",
    "C41_signature_failure_final_partial",
    "C41_is_aborted_iff"
   ],
   "note": "False of the code: an ABORT sent because the authenticator raised does not set STATE_ABORTED; unlimited ticket guesses (refuted); partial: signature failures and the peer's ABORT are final."
  },
  {
   "property": "C42",
   "status": "partial",
   "theorems": [
    "C42_bad_hex_refuted",
    "C42_bad_pubkey_refuted",
    "C42_non_ascii_refuted",
    "C42_answered_partial",
    "C42_challenge_methods"
   ],
   "note": "False of the code: non-hex cryptosign signatures or public keys and non-ASCII WAMP-CRA signatures raise out of receive_message (refuted); partial: every other signature is answered."
  },
  {
   "property": "C43",
   "status": "proved",
   "theorems": [
    "C43_python_no_authenticator",
    "C43_python_anonymous",
    "C43_C44_python_ticket",
    "C43_C44_python_wampcra",
    "C43_python_cryptosign",
    "C43_no_authenticator",
    "C43_anonymous",
    "C43_ticket",
    "C43_wampcra",
    "C43_cryptosign"
   ],
   "note": "Parametric in the crypto primitives (Ed25519 correctness assumed as an explicit hypothesis) and in a codec that round-trips the exchanged messages; C43_python_* are about the concrete JSON, MsgPack and CBOR codecs and assume nothing about the serializer."
  },
  {
   "property": "C44",
   "status": "proved",
   "theorems": [
    "C44_wrong_ticket",
    "C44_wrong_secret"
   ],
   "note": ""
  },
  {
   "property": "C45",
   "status": "proved",
   "theorems": [
    "C45_receive_done",
    "C45_receive_replies"
   ],
   "note": ""
  },
  {
   "property": "C46",
   "status": "partial",
   "theorems": [
    "C46_abort_raises_refuted",
    "C46_abort_marks_partial"
   ],
   "note": "False of the code: receive serializes None and raises AttributeError (refuted); partial: the acceptor is marked aborted and receive_message returns None."
  },
  {
   "property": "C47",
   "status": "proved",
   "theorems": [
    "C47_subscribed_meaning",
    "C47_subscribers_meaning",
    "C47_recipients"
   ],
   "note": "For histories with at most 2**53 ids issued, as the property says."
  },
  {
   "property": "C48",
   "status": "proved",
   "theorems": [
    "C48_subscribed_id",
    "C48_event_id",
    "C48_distinct"
   ],
   "note": ""
  },
  {
   "property": "C49",
   "status": "partial",
   "theorems": [
    "C49_refuted",
    "C49_ghost_refuted"
   ],
   "note": "Refuted: after 2**53-1 publishes between two subscriptions both topics have id 1 (and the first subscription then survives its session). C48_distinct is the bounded positive result."
  },
  {
   "property": "C50",
   "status": "proved",
   "theorems": [
    "C50_content"
   ],
   "note": ""
  },
  {
   "property": "C51",
   "status": "proved",
   "theorems": [
    "C51_unsubscribe",
    "C51_exactly_that_one",
    "C51_has_subscription"
   ],
   "note": ""
  },
  {
   "property": "C52",
   "status": "proved",
   "theorems": [
    "C52_membership",
    "C52_subscribe_reply",
    "C52_leave_ends_subscriptions"
   ],
   "note": ""
  },
  {
   "property": "C53",
   "status": "proved",
   "theorems": [
    "C53_only_value_errors"
   ],
   "note": "Proved without any bound on the ids."
  },
  {
   "property": "C54",
   "status": "partial",
   "theorems": [
    "C54_refuted",
    "C54_witness_refuted"
   ],
   "note": "Refuted: the publisher is always among the recipients if subscribed; exclude_me is never read."
  },
  {
   "property": "C55",
   "status": "proved",
   "theorems": [
    "C55_holder_meaning",
    "C55_register",
    "C55_has_registration"
   ],
   "note": ""
  },
  {
   "property": "C56",
   "status": "proved",
   "theorems": [
    "C56_call",
    "C56_never_raises"
   ],
   "note": ""
  },
  {
   "property": "C57",
   "status": "partial",
   "theorems": [
    "C57_unanswered_meaning",
    "C57_only_if",
    "C57_refuted",
    "C57_if_partial",
    "C57_on_record"
   ],
   "note": "False of the code: a YIELD for a pending invocation from its callee can raise KeyError (refuted); partial: only-if direction, routing and content always; if direction while the call is on record."
  },
  {
   "property": "C58",
   "status": "proved",
   "theorems": [
    "C58_one_final_answer"
   ],
   "note": ""
  },
  {
   "property": "C59",
   "status": "partial",
   "theorems": [
    "C59_progress",
    "C59_final_refuted",
    "C59_final_partial"
   ],
   "note": "Progressive results fully; the final YIELD holds as long as the call is still on record (C57_on_record), and C59_final_refuted shows that it can raise KeyError otherwise."
  },
  {
   "property": "C60",
   "status": "proved",
   "theorems": [
    "C60_unregister",
    "C60_one_procedure_per_id",
    "C60_after_unregister",
    "C60_after_removal"
   ],
   "note": ""
  },
  {
   "property": "C61",
   "status": "proved",
   "theorems": [
    "C61_membership",
    "C61_other_messages"
   ],
   "note": ""
  },
  {
   "property": "C62",
   "status": "proved",
   "theorems": [
    "C62_error"
   ],
   "note": ""
  },
  {
   "property": "C63",
   "status": "partial",
   "theorems": [
    "C63_refuted",
    "C63_stranger_refuted"
   ],
   "note": "False of the code: no check of the sender (refuted, even for all senders)."
  },
  {
   "property": "C64",
   "status": "partial",
   "theorems": [
    "C64_refuted",
    "C64_callee_refuted",
    "C64_chunk_partial"
   ],
   "note": "False of the code: a final chunk without progress gets a new invocation id and one of the two cannot be answered; chunks may switch callee (both refuted); partial: chunks with progress share the id."
  },
  {
   "property": "C65",
   "status": "partial",
   "theorems": [
    "C65_refuted",
    "C65_exceptions_partial"
   ],
   "note": "False of the code: KeyError escapes from YIELD (refuted); partial: exact condition, everything else is ValueError."
  },
  {
   "property": "C66",
   "status": "partial",
   "theorems": [
    "C66_pending_refuted",
    "C66_recipient_refuted",
    "C66_recipients_partial"
   ],
   "note": "False of the code: remove_session leaves pending invocations in place and RESULTs go to sessions that left (refuted); partial: INVOCATION, REGISTERED, UNREGISTERED only go to members."
  },
  {
   "property": "C67",
   "status": "partial",
   "theorems": [
    "C67_refuted",
    "C67_result_partial"
   ],
   "note": "False of the code: ERROR does not release call_to_invocation_id (refuted); partial: a final RESULT does."
  },
  {
   "property": "C68",
   "status": "proved",
   "theorems": [
    "C68_register",
    "C68_invocation",
    "C68_all_distinct"
   ],
   "note": ""
  },
  {
   "property": "C69",
   "status": "proved",
   "theorems": [
    "C69_pubsub_accepted"
   ],
   "note": "Network model: sessions, broker, dealer and FIFO links; links carry message objects."
  },
  {
   "property": "C70",
   "status": "proved",
   "theorems": [
    "C70_no_salt",
    "C70_salt"
   ],
   "note": ""
  },
  {
   "property": "C71",
   "status": "proved",
   "theorems": [
    "C71_pubkey_announced",
    "C71_constructible"
   ],
   "note": ""
  },
  {
   "property": "C72",
   "status": "partial",
   "theorems": [
    "C72_salted_refuted",
    "C72_salted_witness_refuted",
    "C72_derived_key_partial"
   ],
   "note": "False of the code: the CHALLENGE carries no salt and the client signs with the raw password (refuted, also by a concrete run); partial: a client holding the derived key is welcomed."
  },
  {
   "property": "C73",
   "status": "partial",
   "theorems": [
    "C73_caller_dict_refuted",
    "C73_caller_dict_partial"
   ],
   "note": "False of the code: the constructor writes pubkey into the caller's dict, so a second authenticator sharing it announces the first one's key (refuted); partial: a dict that already has pubkey is left alone."
  },
  {
   "property": "C74",
   "status": "proved",
   "theorems": [
    "C74_one_challenge"
   ],
   "note": ""
  },
  {
   "property": "C75",
   "status": "partial",
   "theorems": [
    "C75_refuted",
    "C75_call_partial"
   ],
   "note": "False of the code: INVOCATION is built with binary=False and RESULT without payload (refuted); partial: what is handed on."
  },
  {
   "property": "C76",
   "status": "partial",
   "theorems": [
    "C76_refuted",
    "C76_yield_partial"
   ],
   "note": "False of the code: CALL is served for unknown sessions (refuted); partial: YIELD only from the invoked session."
  },
  {
   "property": "C77",
   "status": "proved",
   "theorems": [
    "C77_rpc_accepted"
   ],
   "note": ""
  },
  {
   "property": "C78",
   "status": "partial",
   "theorems": [
    "C78_reuse_refuted",
    "C78_progress_refuted",
    "C78_session_reuse_refuted"
   ],
   "note": "False of the code, one witness for each of the three assumptions of C69/C77."
  },
  {
   "property": "C79",
   "status": "proved",
   "theorems": [
    "C79_pubsub_answered",
    "C79_rpc_answered"
   ],
   "note": "Same network model as C69; UNSUBSCRIBE and UNREGISTER are the subject of C80."
  },
  {
   "property": "C80",
   "status": "partial",
   "theorems": [
    "C80_unsubscribe_partial",
    "C80_unregister_partial",
    "C80_unsubscribe_refuted",
    "C80_unregister_refuted"
   ],
   "note": "False of the code: receive_message raises on an id the client does not hold, and the router has nothing to send back. Proved for ids the client holds (C80_*_partial)."
  },
  {
   "property": "C81",
   "status": "partial",
   "theorems": [
    "C81_msgpack",
    "C81_json",
    "C81_recursion_refuted",
    "C81_cbor"
   ],
   "note": "JSON (str or, C112, bytes) and MsgPack in full; CBOR: what a tag other than a bignum or a container key raises is up to cbor2 (parameter); everything else is covered. All this without recursion limit: with one, JSON and CBOR input nested deeply enough raises RecursionError (C81_recursion_refuted, C111)."
  },
  {
   "property": "C82",
   "status": "partial",
   "theorems": [
    "C82_msgpack",
    "C82_json",
    "C82_cbor_refuted"
   ],
   "note": "True for MsgPack and JSON; false for CBOR: cbor2.loads ignores everything after the first item (refuted, for every suffix)."
  },
  {
   "property": "C83",
   "status": "proved",
   "theorems": [
    "C83_msgpack",
    "C83_json",
    "C83_cbor"
   ],
   "note": ""
  },
  {
   "property": "C84",
   "status": "partial",
   "theorems": [
    "C84_json_partial",
    "C84_cbor_partial",
    "C84_msgpack_partial",
    "C84_msgpack_refuted",
    "C84_json_refuted"
   ],
   "note": "JSON for inputs that are valid Unicode; false for a JSON text with a raw surrogate pair, which comes back as one character (refuted). CBOR for plain data with the usual NaN; MsgPack for plain data nested at most 511 deep; false for MsgPack in general: the unpacker accepts nesting the packer refuses (refuted)."
  },
  {
   "property": "C85",
   "status": "partial",
   "theorems": [
    "C85_partial",
    "C85_refuted"
   ],
   "note": "False: bytes from MsgPack cannot be sent as JSON, integers from 2**64 from JSON not as MsgPack, lone surrogates from JSON neither as MsgPack nor as CBOR (refuted); partial: every message made of values all three formats carry."
  },
  {
   "property": "C86",
   "status": "proved",
   "theorems": [
    "C86_wampcra_no_replay"
   ],
   "note": "Without assumption on HMAC: the alternative is an explicit collision. json.dumps is the modelled one."
  },
  {
   "property": "C87",
   "status": "proved",
   "theorems": [
    "C87_challenge_text"
   ],
   "note": "json.dumps/json.loads are the modelled ones; authid, authrole and clock without lone surrogates."
  },
  {
   "property": "C88",
   "status": "proved",
   "theorems": [
    "C88_stream",
    "C88_stream_python"
   ],
   "note": "For any codec that carries the messages, and for the concrete codecs with values all formats carry."
  },
  {
   "property": "C89",
   "status": "partial",
   "theorems": [
    "C89_text",
    "C89_details",
    "C89_details_key",
    "C89_session_id_refuted",
    "C89_session_id_partial"
   ],
   "note": "validate_session_id_or_raise accepts 0 and booleans although the comment beside it says 1 to 2**53 (refuted); partial: exactly 0..2**53 and booleans; the other helpers in full."
  },
  {
   "property": "C90",
   "status": "proved",
   "theorems": [
    "C90_details_eq",
    "C90_equivalence"
   ],
   "note": ""
  },
  {
   "property": "C91",
   "status": "proved",
   "theorems": [
    "C91_error_text"
   ],
   "note": "str() of the arguments is a parameter."
  },
  {
   "property": "C92",
   "status": "proved",
   "theorems": [
    "C92_timestamp",
    "C92_order"
   ],
   "note": ""
  },
  {
   "property": "C93",
   "status": "proved",
   "theorems": [
    "C93_keypair"
   ],
   "note": "Ed25519 correctness is an explicit premise of the signature part."
  },
  {
   "property": "C94",
   "status": "partial",
   "theorems": [
    "C94_shared_dict_refuted",
    "C94_object",
    "C94_marshal_partial",
    "C94_dicts_partial"
   ],
   "note": "False of the code: the options/details getter of a message with a payload serializer writes x_payload_serializer into the caller's dict, and a second message built with that dict then sends it (refuted); partial: other keys never change, and messages that share a dict and agree on the serializer marshal as if alone (this also justifies the state-free marshal of Messages.v)."
  },
  {
   "property": "C95",
   "status": "proved",
   "theorems": [
    "C95_bytes_as_objects"
   ],
   "note": "Links with bytes (ByteNetwork.v); the router's loop is ours, as in C69."
  },
  {
   "property": "C96",
   "status": "proved",
   "theorems": [
    "C96_pubsub_accepted",
    "C96_rpc_accepted"
   ],
   "note": "C69 and C77 carried over bytes by C95; the same hypotheses."
  },
  {
   "property": "C97",
   "status": "proved",
   "theorems": [
    "C97_pubsub_answered",
    "C97_rpc_answered"
   ],
   "note": "C79 carried over bytes by C95; the same hypotheses."
  },
  {
   "property": "C98",
   "status": "partial",
   "theorems": [
    "C98_refuted"
   ],
   "note": "False: bytes from a MsgPack client are acknowledged but cannot be encoded for a JSON subscriber (refuted). For contents all formats carry see C95-C97."
  },
  {
   "property": "C99",
   "status": "proved",
   "theorems": [
    "C99_origin",
    "C99_origin_bytes"
   ],
   "note": "Objects: for every schedule. Bytes: contents all formats carry. That an ERROR copies one sent by the invoked callee is not claimed: the dealer does not check the sender (C63)."
  },
  {
   "property": "C100",
   "status": "proved",
   "theorems": [
    "C100_event_arrives"
   ],
   "note": "Network model of C69 (object links)."
  },
  {
   "property": "C101",
   "status": "proved",
   "theorems": [
    "C101_events_once",
    "C101_invocations_once"
   ],
   "note": "No assumption on the clients, which need not use WAMPSession. Parts of one call share one invocation id (example C101_parts)."
  },
  {
   "property": "C102",
   "status": "proved",
   "theorems": [
    "C102_call_answered"
   ],
   "note": "Needs that nobody else sends an ERROR for the invocation, because the dealer accepts it from any session (C63); a YIELD of another session is harmless. The binary payload of a YIELD is not part of the claim: the dealer drops it (C75)."
  },
  {
   "property": "C103",
   "status": "proved",
   "theorems": [
    "C103_sanity_check",
    "C103_parse",
    "C103_not_a_list"
   ],
   "note": "On objects that are not lists the type is named; RecursionError for self-containing lists is not modelled."
  },
  {
   "property": "C104",
   "status": "proved",
   "theorems": [
    "C104_derive_accepts",
    "C104_derive_length",
    "C104_derive_raises",
    "C104_wampcra_answer",
    "C104_cryptosign_answer"
   ],
   "note": "With the concrete primitives (Sha2.v, Ed25519.v), which are checked against published vectors and the vectors of /repo/tests/auth (CryptoVectors.v, Ed25519Vectors.v)."
  },
  {
   "property": "C105",
   "status": "partial",
   "theorems": [
    "C105_right_secret_welcomed",
    "C105_only_right_secret_refuted",
    "C105_wrong_secret_refused_partial"
   ],
   "note": "False: a secret of fewer than 64 octets followed by chr(0) is welcomed too, because HMAC pads keys with zeros (refuted, for every such secret). Partial: the right secret is welcomed; a secret whose HMAC of the challenge differs is refused."
  },
  {
   "property": "C106",
   "status": "proved",
   "theorems": [
    "C106_in_order",
    "C106_two_events"
   ],
   "note": "The attribution is existential: the model's messages carry no sender, so the theorem says that some attribution explains what arrived. C106_two_events needs none: payloads identify publications."
  },
  {
   "property": "C107",
   "status": "proved",
   "theorems": [
    "C107_publications_increase",
    "C107_invocations_increase",
    "C107_same_order"
   ],
   "note": "With more than 2^53 messages handled ids start again at 1."
  },
  {
   "property": "C108",
   "status": "proved",
   "theorems": [
    "C108_event_arrives",
    "C108_call_answered",
    "C108_in_order",
    "C108_publications_increase",
    "C108_invocations_increase"
   ],
   "note": "By simulation (C95)."
  },
  {
   "property": "C109",
   "status": "proved",
   "theorems": [
    "C109_bounded",
    "C109_comes_to_rest",
    "C109_rest_is_idle",
    "C109_pubsub_answered",
    "C109_rpc_answered"
   ],
   "note": "C109_bounded gives the bound; C109_comes_to_rest with C109_rest_is_idle shows that the premise 'nothing in transit' of C79, C80, C97, C100 and C102 can always be reached."
  },
  {
   "property": "C110",
   "status": "proved",
   "theorems": [
    "C110_events_while_subscribed",
    "C110_invocations_while_registered"
   ],
   "note": "Conditions as in C69 and C77. 'Told' means received: the event may arrive after the client sent its UNSUBSCRIBE."
  },
  {
   "property": "C111",
   "status": "proved",
   "theorems": [
    "C111_json",
    "C111_cbor",
    "C111_json_exact",
    "C111_cbor_enough",
    "C111_json_raises",
    "C111_cbor_raises",
    "C111_msgpack"
   ],
   "note": "The limit is a parameter counting nested containers (JSON) or nested decode calls (CBOR); how many Python frames one takes is not modelled."
  },
  {
   "property": "C112",
   "status": "proved",
   "theorems": [
    "C112_encodings",
    "C112_text",
    "C112_unicode",
    "C112_errors"
   ],
   "note": "json.detect_encoding and the UTF-16/UTF-32 decoders are modelled in JsonBytes.v."
  },
  {
   "property": "C113",
   "status": "proved",
   "theorems": [
    "C113_accepted",
    "C113_pubsub_answered",
    "C113_rpc_answered",
    "C113_end_answered",
    "C113_event_arrives",
    "C113_call_answered",
    "C113_while_held"
   ],
   "note": "C69, C77, C79, C80, C100, C102 and C110 with their conditions asked only of the client concerned (disciplined, SpecNetwork.v); the others need not even use WAMPSession (APut). A call can still be ended by an ERROR of a third party (C63), which C113_call_answered excludes by no_reply."
  },
  {
   "property": "C114",
   "status": "proved",
   "theorems": [
    "C114_accepted",
    "C114_pubsub_answered",
    "C114_register_answered",
    "C114_end_answered",
    "C114_event_arrives",
    "C114_call_answered"
   ],
   "note": "C113 on bytes, with clients that bypass the library entirely (HostileNetwork.v). The router drops a message it cannot serialize for the recipient, and an item it cannot deserialize, as in C95. Calls to a procedure of a hostile client are not covered (its reply may be unserializable for the caller)."
  },
  {
   "property": "C115",
   "status": "proved",
   "theorems": [
    "C115_bounded",
    "C115_comes_to_rest",
    "C115_rest_is_idle",
    "C115_pubsub_answered",
    "C115_register_answered"
   ],
   "note": "C109 on bytes with hostile clients. Bound and coming to rest need no condition on any client."
  },
  {
   "property": "C116",
   "status": "proved",
   "theorems": [
    "C116_only_while_held"
   ],
   "note": "C110 on bytes with hostile clients; same conditions on the client concerned as C114."
  },
  {
   "property": "C117",
   "status": "proved",
   "theorems": [
    "C117_derived_key",
    "C117_client_answer",
    "C117_router_accepts"
   ],
   "note": "The standards are written down on bit strings in SpecSha2.v, with the constants computed from the roots of primes; SpecBase64.v describes the texts."
  },
  {
   "property": "C118",
   "status": "proved",
   "theorems": [
    "C118_announced_key",
    "C118_signature",
    "C118_accepts"
   ],
   "note": "RFC 8032 is written down on pairs of integers in SpecEd25519.v (no division: the equations are multiplied by the denominators), SHA-512 on bit strings in SpecSha2.v. Both moduli are proved prime and the group law associative, so the theorem speaks about the curve and not about the formulas of the model."
  },
  {
   "property": "C119",
   "status": "proved",
   "theorems": [
    "C119_own_signature",
    "C119_any_key",
    "C119_login",
    "C119_own_login"
   ],
   "note": "The exception (a nonce that is a multiple of the group order) is a SHA-512 output nobody can produce; it is stated because libsodium refuses such a signature."
  },
  {
   "property": "C120",
   "status": "proved",
   "theorems": [
    "C120_one_second_half"
   ],
   "note": "Follows from the order of the base point; nothing is claimed about the first half."
  },
  {
   "property": "C121",
   "status": "proved",
   "theorems": [
    "C121_reads",
    "C121_exact",
    "C121_writes",
    "C121_message",
    "C121_unambiguous"
   ],
   "note": "SpecCbor.v writes the RFC down as a relation between values and octets; not in it: tags other than bignums and container keys (not modelled). No recursion limit here (C111)."
  },
  {
   "property": "C122",
   "status": "proved",
   "theorems": [
    "C122_exact",
    "C122_writes",
    "C122_message",
    "C122_unambiguous"
   ],
   "note": "SpecMsgPack.v writes the specification down as a relation between values and octets. Ext objects are one opaque value."
  },
  {
   "property": "C123",
   "status": "partial",
   "theorems": [
    "C123_reads",
    "C123_exact",
    "C123_writes",
    "C123_writes_any",
    "C123_message",
    "C123_unambiguous",
    "C123_strict_refuted"
   ],
   "note": "SpecJson.v writes the grammar down as a relation between values and texts, rounding included. Refuted part: NaN and infinities are written, and are not JSON. Input as UTF-8; other encodings C112. No recursion limit here (C111)."
  },
  {
   "property": "C124",
   "status": "partial",
   "theorems": [
    "C124_decode",
    "C124_errors",
    "C124_cbor",
    "C124_msgpack",
    "C124_json",
    "C124_arrays_refuted"
   ],
   "note": "Refuted part: a JSON object raises KeyError, and maps count as payloads (payload.py does not check that arr is a list). Generalises C13, which is about lists."
  },
  {
   "property": "C125",
   "status": "proved",
   "theorems": [
    "C125_message",
    "C125_receive",
    "C125_network"
   ],
   "note": "JSON spelled in UTF-8; other Unicode encodings of JSON are C112."
  },
  {
   "property": "C126",
   "status": "proved",
   "theorems": [
    "C126_value",
    "C126_message",
    "C126_payload"
   ],
   "note": "JSON given as text or in UTF-8."
  },
  {
   "property": "C127",
   "status": "proved",
   "theorems": [
    "C127_digits"
   ],
   "note": "About the model of CPython's float.__repr__ that the json module uses."
  },
  {
   "property": "C128",
   "status": "proved",
   "theorems": [
    "C128_value",
    "C128_length",
    "C128_number"
   ],
   "note": "The main loop of the router is that of HostileNetwork.v. The request id of a pending call is repeated in its result, hence 2M."
  },
  {
   "property": "C129",
   "status": "proved",
   "theorems": [
    "C129_writes",
    "C129_reads",
    "C129_message",
    "C129_head"
   ],
   "note": "The behaviour is a parameter (record unknown in CodecOpen.v). Since then is_python_codec, the premise of C43, C88, C95-C97, C105, C108, C113-C116 and C119, includes the libraries with any such behaviour. An object is known by its class and truth value only; cyclic values (CBOR tags 28 and 29) cannot be represented."
  },
  {
   "property": "C130",
   "status": "partial",
   "theorems": [
    "C130_acceptor",
    "C130_hello_refused",
    "C130_acceptor_bytes_partial",
    "C130_acceptor_bytes_refuted",
    "C130_joiner",
    "C130_send_hello_refuted",
    "C130_joiner_bytes_refuted",
    "C130_dealer_partial",
    "C130_dealer_membership",
    "C130_dealer_refuted"
   ],
   "note": "receive_message of acceptor and joiner in full, and a refused HELLO. False of receive and send_hello: when the answer cannot be serialized they raise after the state has changed (refuted for all three; the other cases are C130_acceptor_bytes_partial). Dealer: true of ValueErrors, false of the KeyErrors of C65. Broker: C53; session: C26."
  },
  {
   "property": "C131",
   "status": "proved",
   "theorems": [
    "C131_broker",
    "C131_has_subscription",
    "C131_dealer",
    "C131_has_registration"
   ],
   "note": "In full. The URI of an ERROR and the options are not renamed: the dealer makes some of the former, and reads the latter. Texts of ValueErrors may differ (they name the session)."
  },
  {
   "property": "C132",
   "status": "proved",
   "theorems": [
    "C132_broker",
    "C132_has_subscription",
    "C132_dealer",
    "C132_has_registration",
    "C132_broker_forgets",
    "C132_dealer_forgets",
    "C132_broker_as_new"
   ],
   "note": "In full for fewer than 2^53 calls; beyond that ids wrap (C49). The reference follows the code where the code departs from the protocol, e.g. the KeyError of the dealer (C130) and errors from sessions other than the callee."
  },
  {
   "property": "C133",
   "status": "partial",
   "theorems": [
    "C133_refuted",
    "C133_nonces_refuted",
    "C133_next_challenge_refuted",
    "C133_next_nonce_refuted"
   ],
   "note": "Refuted: `clone` computes the generator from texts seen. For texts drawn in a row with nothing else drawn in between; draws in between that are not seen (session ids of connections that fail) are not covered. CPython's generator is modelled in Random.v; seeding is not."
  },
  {
   "property": "C134",
   "status": "proved",
   "theorems": [
    "C134_challenge",
    "C134_nonce",
    "C134_session_id"
   ],
   "note": "In full. That an attempt below 2^53 comes up is not stated: `randint` may try any number of times."
  },
  {
   "property": "C135",
   "status": "partial",
   "theorems": [
    "C135_text",
    "C135_read",
    "C135_message",
    "C135_refuted",
    "C135_lost_refuted",
    "C135_others"
   ],
   "note": "Refuted for JSON and MsgPack; C135_text, C135_read and C135_message say exactly what JSON does instead, C135_others shows the other two on an example."
  },
  {
   "property": "C136",
   "status": "proved",
   "theorems": [
    "C136_receive",
    "C136_send"
   ],
   "note": "Proved. Also shows that ids of different sorts never interact."
  },
  {
   "property": "C137",
   "status": "proved",
   "theorems": [
    "C137_results",
    "C137_reordered",
    "C137_interleavings"
   ],
   "note": "Proved. Each call is taken as atomic; calls of several threads that run inside each other are not modelled. C137_answer_first shows that the exception is needed."
  },
  {
   "property": "C138",
   "status": "partial",
   "theorems": [
    "C138_refuted",
    "C138_same",
    "C138_messages",
    "C138_exceptions"
   ],
   "note": "Refuted by C138_refuted; C138_same, C138_messages and C138_exceptions say what holds. Objects of other classes count as writable."
  }
 ]
}