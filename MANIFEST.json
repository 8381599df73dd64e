{
 "claims": [
  {
   "property": "C01",
   "status": "proved",
   "theorems": [
    "C01_base64_round_trip"
   ],
   "note": "Both alphabets; any heap state in which the decoder's single allocation succeeds."
  },
  {
   "property": "C02",
   "status": "proved",
   "theorems": [
    "C02_encoder_emits_rfc4648"
   ],
   "note": "Against a bit-level RFC 4648 specification (SpecB64.v); url mode up to INT_MAX output characters (see C05)."
  },
  {
   "property": "C03",
   "status": "proved",
   "theorems": [
    "C03_encoder_buffer_safe"
   ],
   "note": "For every size_t length below the counter limit of C05."
  },
  {
   "property": "C04",
   "status": "proved",
   "theorems": [
    "C04_encoder_overflow_exact"
   ],
   "note": "Exact for any size_t width of at least 6 bits."
  },
  {
   "property": "C05",
   "status": "partial",
   "theorems": [
    "C05_encoder_defined_refuted",
    "C05_encoder_defined_partial",
    "C05_encoder_defined_32bit_partial"
   ],
   "note": "Refuted: the int line_length overflows for url inputs of 3*2^29 bytes; exact iff proved, and full property for 32-bit size_t."
  },
  {
   "property": "C06",
   "status": "proved",
   "theorems": [
    "C06_decoder_memory_safe"
   ],
   "note": "Every byte string, every allocator outcome."
  },
  {
   "property": "C07",
   "status": "proved",
   "theorems": [
    "C07_decoder_never_empty"
   ],
   "note": ""
  },
  {
   "property": "C08",
   "status": "partial",
   "theorems": [
    "C08_decoder_rejects_foreign_refuted",
    "C08_decoder_skips_foreign_partial"
   ],
   "note": "Refuted: foreign characters are skipped. Exact behaviour proved instead."
  },
  {
   "property": "C09",
   "status": "partial",
   "theorems": [
    "C09_decoded_nul_terminated_refuted",
    "C09_decoded_nul_terminated_partial"
   ],
   "note": "Refuted for non-canonical text; byte always in bounds, zero for canonical text."
  },
  {
   "property": "C10",
   "status": "proved",
   "theorems": [
    "C10_no_json_injection",
    "C10_string_body_closed",
    "C10_write_claims_defined",
    "C10_non_ascii_undefined"
   ],
   "note": "Whole claim arrays against an RFC 8259 string grammar with denotation; buffer growth assumed to succeed (C34). Where char is signed a non-ASCII character is undefined behaviour (C10_non_ascii_undefined), so the text is only defined for ASCII there."
  },
  {
   "property": "C11",
   "status": "partial",
   "theorems": [
    "C11_header_and_payload_partial",
    "C11_json_exactly_when",
    "C11_not_json_refuted"
   ],
   "note": "Refuted: a comma is missing (or too many) for a registered claim given with length 0 next to additional claims, or for claim arrays that contribute no text. Proved for all other parameter sets, and exactly characterised: the segment is a JSON object iff the comma condition holds. Other-typed claim values are required to be JSON values."
  },
  {
   "property": "C12",
   "status": "partial",
   "theorems": [
    "C12_escape_round_trip_refuted",
    "C12_escape_round_trip_partial"
   ],
   "note": "Refuted: control characters escaped as \\u00xx and DEL are not unescaped. Exact iff proved: a key/value pair survives iff it contains none of them."
  },
  {
   "property": "C13",
   "status": "proved",
   "theorems": [
    "C13_unescape_in_bounds"
   ],
   "note": "Every type, text, and allocator outcome; lengths below the size_t limit."
  },
  {
   "property": "C14",
   "status": "proved",
   "theorems": [
    "C14_token_shape"
   ],
   "note": "Buffer growth (chillbuff_push_back) assumed to succeed; malloc/calloc may fail."
  },
  {
   "property": "C15",
   "status": "proved",
   "theorems": [
    "C15_header_names_algorithm"
   ],
   "note": "Against the JWA table of SpecJwa.v; every env."
  },
  {
   "property": "C16",
   "status": "proved",
   "theorems": [
    "C16_unknown_algorithm"
   ],
   "note": "Every integer id, every allocator outcome."
  },
  {
   "property": "C17",
   "status": "partial",
   "theorems": [
    "C17_unsuitable_keys_partial",
    "C17_non_hex_key_refuted"
   ],
   "note": "RSA and EC keys proved; EdDSA keys are 128 characters but need not be hexadecimal (refuted)."
  },
  {
   "property": "C18",
   "status": "proved",
   "theorems": [
    "C18_round_trip"
   ],
   "note": "For allocators that do not fail, parameters for which the comma logic is right (C11), JSON literal values and texts within the decoder's token limit. Strings come back as [comes_back] says: unchanged in the invertible fragment, control characters as their \\u escape."
  },
  {
   "property": "C19",
   "status": "partial",
   "theorems": [
    "C19_signature_enforced_partial",
    "C19_signature_exact_partial",
    "C19_signature_enforced_refuted"
   ],
   "note": "The flag is exactly the verdict on the bytes the code looks at; these are the decoded signature if it has the right length. Refuted for other lengths."
  },
  {
   "property": "C20",
   "status": "proved",
   "theorems": [
    "C20_token_cannot_choose"
   ],
   "note": ""
  },
  {
   "property": "C21",
   "status": "partial",
   "theorems": [
    "C21_unsupported_alg_refuted",
    "C21_unsupported_alg_partial"
   ],
   "note": "Refuted for every unsupported id: no signature check takes place."
  },
  {
   "property": "C22",
   "status": "partial",
   "theorems": [
    "C22_hmac_compared_partial",
    "C22_hmac_compared_refuted"
   ],
   "note": "Equality for signatures of the size of the MAC; refuted for longer and shorter ones."
  },
  {
   "property": "C23",
   "status": "partial",
   "theorems": [
    "C23_decode_defined_partial",
    "C23_decode_raw_defined_partial",
    "C23_no_validation_defined",
    "C23_decode_defined_refuted"
   ],
   "note": "Defined behaviour proved for every token whose header and payload have at most 62 tokens (or are JSON objects not ending in a container) whose signature and key fit the algorithm and, if typ is validated and char is signed, whose typ claims are ASCII; every excluded case is exhibited as undefined behaviour. The exact set of tokens is characterised in C74."
  },
  {
   "property": "C24",
   "status": "partial",
   "theorems": [
    "C24_identity_claims_partial",
    "C24_identity_claims_refuted"
   ],
   "note": "Exact for tokens in which no claim name extends the checked one and claims of that name agree; in general the code checks the first claim whose name starts with it, so the claim is refuted in both directions."
  },
  {
   "property": "C25",
   "status": "partial",
   "theorems": [
    "C25_expiry_partial",
    "C25_expiry_refuted"
   ],
   "note": "Exact for decimal values of any size when no claim name extends exp; refuted for prefix matches (expires)."
  },
  {
   "property": "C26",
   "status": "partial",
   "theorems": [
    "C26_not_before_issued_at_partial",
    "C26_not_before_refuted"
   ],
   "note": "As C25."
  },
  {
   "property": "C27",
   "status": "partial",
   "theorems": [
    "C27_type_partial",
    "C27_type_refuted"
   ],
   "note": "Exact for lengths beyond the expected string; a prefix check for its own length, and always failing for length 0."
  },
  {
   "property": "C28",
   "status": "proved",
   "theorems": [
    "C28_only_requested_flags"
   ],
   "note": ""
  },
  {
   "property": "C29",
   "status": "proved",
   "theorems": [
    "C29_failure_is_not_validity"
   ],
   "note": ""
  },
  {
   "property": "C30",
   "status": "proved",
   "theorems": [
    "C30_decode_and_raw",
    "C30_raw_and_no_validation"
   ],
   "note": "Of executions that return (no undefined behaviour)."
  },
  {
   "property": "C31",
   "status": "partial",
   "theorems": [
    "C31_members_partial",
    "C31_members_refuted"
   ],
   "note": "Proved for every call that succeeds on JSON objects of any size, up to \\u escapes, which stay as they are, if the appends to the claims buffer succeed. Refuted beyond: \\u escapes are not decoded; on more than 64 tokens ending in an array the call is undefined (read behind the token array; C52, C74 say when)."
  },
  {
   "property": "C32",
   "status": "partial",
   "theorems": [
    "C32_decode_frees_partial",
    "C32_decode_raw_frees_partial",
    "C32_decode_raw_no_validation_frees",
    "C32_json_tokens_freed",
    "C32_json_tokens_freed_raw",
    "C32_unclosed_tokens_leak",
    "C32_decode_frees_refuted"
   ],
   "note": "Proved when no chillbuff_push_back fails and the tokenizer counts the token's JSON right, which is shown for all JSON objects; both leaks that occur otherwise are exhibited, the first for every token with an unclosed object of more than 64 values and names."
  },
  {
   "property": "C33",
   "status": "proved",
   "theorems": [
    "C33_encode_frees_everything"
   ],
   "note": "Every allocator outcome including failing buffer growth."
  },
  {
   "property": "C34",
   "status": "partial",
   "theorems": [
    "C34_claims_all_or_nothing_partial",
    "C34_claims_silently_dropped_refuted"
   ],
   "note": "Refuted: failures inside l8w8jwt_write_claims are ignored and the claims are dropped."
  },
  {
   "property": "C35",
   "status": "partial",
   "theorems": [
    "C35_get_claim_refuted",
    "C35_get_claim_prefix_partial",
    "C35_get_claim_exact_partial"
   ],
   "note": "Refuted: matches are by prefix. Exact behaviour (first claim whose key starts with the requested key) and the exact-match property when no key properly extends the requested one."
  },
  {
   "property": "C36",
   "status": "partial",
   "theorems": [
    "C36_strncmpic_refuted",
    "C36_strncmpic_empty_refuted",
    "C36_strncmpic_defined_refuted",
    "C36_strncmpic_partial",
    "C36_strncmpic_degenerate_partial"
   ],
   "note": "Refuted for n = 0 and for two empty strings (-1), and undefined for non-ASCII with signed char; proved otherwise."
  },
  {
   "property": "C37",
   "status": "partial",
   "theorems": [
    "C37_hexstr2bin_rejects_refuted",
    "C37_hexstr2bin_value_partial",
    "C37_hexstr2bin_safe_partial",
    "C37_hexstr2bin_codes_partial"
   ],
   "note": "Conversion, bounds and length errors proved; rejection of non-hexadecimal text refuted."
  },
  {
   "property": "C38",
   "status": "proved",
   "theorems": [
    "C38_validate_encoding_params",
    "C38_validate_decoding_params",
    "C38_rejected_untouched",
    "C38_result_pointers",
    "C38_params_init"
   ],
   "note": ""
  },
  {
   "property": "C39",
   "status": "partial",
   "theorems": [
    "C39_key_over_read_refuted",
    "C39_key_in_bounds_partial"
   ],
   "note": "Refuted at the maximal length without NUL; proved otherwise."
  },
  {
   "property": "C40",
   "status": "proved",
   "theorems": [
    "C40_hmac_key_nul_sign",
    "C40_hmac_key_nul_verify"
   ],
   "note": ""
  },
  {
   "property": "C41",
   "status": "partial",
   "theorems": [
    "C41_signature_buffer_partial",
    "C41_encode_key_buffer_refuted",
    "C41_decode_key_buffer_refuted"
   ],
   "note": "Refuted for the key buffer (zeroize through NULL)."
  },
  {
   "property": "C42",
   "status": "partial",
   "theorems": [
    "C42_time_text_partial",
    "C42_negative_time_refuted"
   ],
   "note": "Non-negative times proved; negative ones refuted."
  },
  {
   "property": "C43",
   "status": "partial",
   "theorems": [
    "C43_three_segments_partial",
    "C43_three_segments_refuted"
   ],
   "note": "At least two dots and no empty segment; refuted for further dots."
  },
  {
   "property": "C44",
   "status": "proved",
   "theorems": [
    "C44_fixed_width_signatures",
    "C44_decoder_splits"
   ],
   "note": ""
  },
  {
   "property": "C45",
   "status": "partial",
   "theorems": [
    "C45_object_partial",
    "C45_json_object_partial",
    "C45_object_refuted"
   ],
   "note": "An accepted text starts with a brace and has matching brackets, or has no token at all; a JSON text that is accepted is an object. Being JSON is refuted."
  },
  {
   "property": "C46",
   "status": "partial",
   "theorems": [
    "C46_histories_partial",
    "C46_histories_refuted"
   ],
   "note": "No double free in any history; nothing but the client's blocks remains under the conditions of C32, refuted without them."
  },
  {
   "property": "C47",
   "status": "proved",
   "theorems": [
    "C47_free_claims",
    "C47_free_claims_null"
   ],
   "note": "For every claim array that owns its blocks; decode hands out such arrays (C32)."
  },
  {
   "property": "C48",
   "status": "proved",
   "theorems": [
    "C48_version_functions"
   ],
   "note": ""
  },
  {
   "property": "C49",
   "status": "partial",
   "theorems": [
    "C49_encode_memory_safe_partial",
    "C49_undefined_refuted"
   ],
   "note": "Proved under the stated restrictions; each shown necessary."
  },
  {
   "property": "C50",
   "status": "partial",
   "theorems": [
    "C50_valid_tokens_accepted_partial",
    "C50_valid_tokens_accepted_refuted"
   ],
   "note": "For texts within the decoder's token limit (C31) and allocators that do not fail. Refuted beyond the limit: a properly signed token with 64 JSON values and names makes the call read past its token array."
  },
  {
   "property": "C51",
   "status": "proved",
   "theorems": [
    "C51_issued_tokens"
   ],
   "note": "Under the conditions of C18, for expected strings compared with issued strings in the invertible fragment, and provided no additional claim's name starts with the name checked (the lookup is by prefix, C24)."
  },
  {
   "property": "C52",
   "status": "partial",
   "theorems": [
    "C52_token_array_partial",
    "C52_overlong_tokens_over_read",
    "C52_token_array_refuted"
   ],
   "note": "Exact for JSON object texts: inside the array up to 62 values and names or if the last member is flat; for every larger text ending in an array or object the code reads past the token array, for every token carrying it whatever its signature. Arbitrary texts, JSON or not: C74."
  },
  {
   "property": "C53",
   "status": "partial",
   "theorems": [
    "C53_verdict_partial",
    "C53_verdict_as_coded_partial",
    "C53_verdict_refuted"
   ],
   "note": "Proved both ways for tokens without unicode escapes and with signatures of the algorithm's length: against the first member, header before payload, whose name starts with the name asked for; hence as stated when the names are used as intended. Refuted otherwise: a header member sub makes a token about mallory pass as alice; an escaped alice is not recognised."
  },
  {
   "property": "C54",
   "status": "proved",
   "theorems": [
    "C54_encode",
    "C54_decode",
    "C54_decode_raw",
    "C54_base64",
    "C54_repeatable"
   ],
   "note": "Two-run relation over all heaps and allocation outcomes; the crypto backend, clock and token-array contents are the same in both runs (for the latter see C55)."
  },
  {
   "property": "C55",
   "status": "partial",
   "theorems": [
    "C55_uninitialised_tokens_partial",
    "C55_uninitialised_tokens_refuted"
   ],
   "note": "Proved for every token whose header and payload have at most 62 JSON tokens each or are objects whose last member is flat. Refuted beyond: with 63 tokens and a nested last member, stale stack contents decide between success and reading past the array."
  },
  {
   "property": "C56",
   "status": "proved",
   "theorems": [
    "C56_decode_no_corruption",
    "C56_decode_raw_no_corruption",
    "C56_encode_no_corruption",
    "C56_base64_no_corruption",
    "C56_helpers_no_corruption",
    "C56_loops_end"
   ],
   "note": "No assumption on arguments or allocator. Assumed of the libraries: a failing chillbuff_init leaves a zeroed buffer (or does not fail), RSA moduli are at most 4096 bytes. l8w8jwt_free_claims is not included: what it frees is the caller's choice (C32)."
  },
  {
   "property": "C57",
   "status": "proved",
   "theorems": [
    "C57_decode_two_times",
    "C57_decode_raw_two_times",
    "C57_decode_interval"
   ],
   "note": "For executions without undefined behaviour (a time plus tolerance outside 64 bits is one); the interval theorem also shows that none arises between two times where none does."
  },
  {
   "property": "C58",
   "status": "partial",
   "theorems": [
    "C58_token_end_partial",
    "C58_token_end_refuted"
   ],
   "note": "Proved for tokens with two dots (and no NUL before them) within the given length. Refuted otherwise: the dots are searched with strchr, and one behind the length makes the signature length wrap around."
  },
  {
   "property": "C59",
   "status": "partial",
   "theorems": [
    "C59_foreign_characters_partial",
    "C59_respellable_refuted"
   ],
   "note": "Refuted for every token: a character outside the alphabet appended to it changes nothing. Exactly: texts whose signature parts agree up to such characters have the same outcome."
  },
  {
   "property": "C60",
   "status": "partial",
   "theorems": [
    "C60_numeric_date_as_coded_partial",
    "C60_numeric_date_partial",
    "C60_numeric_date_refuted"
   ],
   "note": "Exactly what is compared is proved for all JSON numbers: the integer part of the mantissa. That is right for integers without exponent and for non-negative fractional expiry dates. Refuted for exponents (nbf 2e9 is accepted at 1000) and fractional nbf/iat (up to a second early)."
  },
  {
   "property": "C61",
   "status": "partial",
   "theorems": [
    "C61_same_token_same_claims_partial",
    "C61_same_token_other_claims_refuted"
   ],
   "note": "Proved for all pairs of requests whose claims come out as JSON and whose additional payload claims avoid the seven registered names (without the latter: both ask for the same list of members). Refuted otherwise: a registered claim given as an additional claim looks the same, and an unchecked non-string value can pass for several claims."
  },
  {
   "property": "C62",
   "status": "partial",
   "theorems": [
    "C62_unsuitable_keys_partial",
    "C62_key_facts_ignored",
    "C62_unsuitable_keys_refuted"
   ],
   "note": "Proved: the key could be parsed and is an RSA key for PS, an EC key for ES, 64 hex digits for EdDSA (hex digits assumed, C37). Refuted: decoding behaves the same whatever the size, the curve and (for RS) the kind of the key, for every backend; with a witness for each of the thirteen other algorithms."
  },
  {
   "property": "C63",
   "status": "proved",
   "theorems": [
    "C63_encode_contexts",
    "C63_decode_contexts",
    "C63_decode_raw_contexts"
   ],
   "note": "On a second transcription of the functions that records these operations (Context.v) and is proved to compute what the first one does. An operation that may allocate inside a context counts as filling it even if it fails."
  },
  {
   "property": "C64",
   "status": "proved",
   "theorems": [
    "C64_encode_wipes",
    "C64_decode_wipes",
    "C64_decode_raw_wipes"
   ],
   "note": "As C63. The library's own copies; what mbedtls wipes inside its contexts is its business."
  },
  {
   "property": "C65",
   "status": "proved",
   "theorems": [
    "C65_decode_memory",
    "C65_decode_raw_memory",
    "C65_no_validation_memory",
    "C65_token_array"
   ],
   "note": "The growth of the claims buffer itself is chillbuff's (its element count is bounded). Tokenizer: the model of jsmn."
  },
  {
   "property": "C66",
   "status": "partial",
   "theorems": [
    "C66_keygen_seed_partial",
    "C66_keygen_seed_refuted"
   ],
   "note": "The seed bytes are multiplied by digest bytes modulo 256. Proved: exactly what becomes of each byte, how many values it can still take, and that no entropy is lost iff all 64 digest bytes are odd. Refuted: that different seeds stay different. SHA-512 and ref10 key generation are parameters."
  },
  {
   "property": "C67",
   "status": "partial",
   "theorems": [
    "C67_encode_program_partial",
    "C67_decode_program_partial",
    "C67_rs256_program_partial",
    "C67_programs_refuted"
   ],
   "note": "Proved: an encoder runs to its end iff encode succeeds, then prints the whole token and has freed it; a decoder runs into undefined behaviour only if decode does or its arguments are rejected, and gives everything back (conditions of C32) except the HS256 one on success. Refuted: the encoders print an uninitialised pointer when encode fails, the RS256 decoder prints NULL for a token that does not decode, the HS256 decoder leaks the claims."
  },
  {
   "property": "C68",
   "status": "partial",
   "theorems": [
    "C68_example_verdict",
    "C68_accepted_in_time",
    "C68_only_signed_partial",
    "C68_examples_refuted"
   ],
   "note": "The verdict is given exactly, for allocators that do not fail and matching keys. Refuted: the RS512 decoder asks for an nbf claim the encoder does not set, so it flags every token; the HS256 decoder passes algorithm -1, which skips the signature, so it accepts forged tokens. The others accept only verified signatures (as read by the code, C19)."
  },
  {
   "property": "C69",
   "status": "partial",
   "theorems": [
    "C69_decode_codes_partial",
    "C69_decode_raw_codes_partial",
    "C69_no_validation_codes",
    "C69_memory_in_claims_refuted"
   ],
   "note": "As stated, except that a lack of memory may also show as DECODE_FAILED_INVALID_TOKEN_FORMAT; refuted that it cannot: running out of memory while copying the claims of a valid token is reported as an invalid format. Exact for the function without validation. The model of jsmn is the tokenizer, and checknum is assumed right."
  },
  {
   "property": "C70",
   "status": "partial",
   "theorems": [
    "C70_encode_codes_partial",
    "C70_memory_refuted"
   ],
   "note": "Each code traced to its cause, with two exceptions, both refuting that a lack of memory always shows as OUT_OF_MEM: while encoding the signature it is reported as BASE64_FAILURE, and while writing claims as success, with a token in which a whole group of claims is missing. Growth of chillbuff's arrays is assumed to succeed."
  },
  {
   "property": "C71",
   "status": "partial",
   "theorems": [
    "C71_claims_kept_partial",
    "C71_members_kept_partial",
    "C71_kept_refuted"
   ],
   "note": "Same claims when decoded again: proved for claims without DEL, under the conditions of C18. Same JSON meaning: proved for members without \\u escapes. Refuted otherwise: DEL comes back as six characters, and a member written \\u0041 is re-encoded as a backslash and u0041."
  },
  {
   "property": "C72",
   "status": "proved",
   "theorems": [
    "C72_encode_allocations",
    "C72_token_length"
   ],
   "note": "Constant: 6251 bytes, of which up to 5463 are the signature. Holds for every outcome of allocations and appends; the number eleven and the factor eight are reached."
  },
  {
   "property": "C73",
   "status": "proved",
   "theorems": [
    "C73_only_own_requests",
    "C73_as_with_unlimited_memory",
    "C73_encode_enough",
    "C73_decode_enough",
    "C73_no_validation_enough"
   ],
   "note": "The bounds are on malloc and calloc; the appends (realloc in chillbuff) are assumed to succeed in the three corollaries. Also used to weaken the hypotheses of C10-C12, C14, C15, C18, C31, C32, C34, C44, C51, C61, C70, C71 from every request to the requests the call makes."
  },
  {
   "property": "C74",
   "status": "proved",
   "theorems": [
    "C74_parse_claims_exact",
    "C74_decode_exact",
    "C74_decode_raw_exact",
    "C74_harmless_defined"
   ],
   "note": "Both directions, with the kind of undefined behaviour; assumes the allocations and appends succeed. C74_harmless_defined drops the former for the tokens that are handled. The tokens are those of the modelled jsmn."
  },
  {
   "property": "C75",
   "status": "proved",
   "theorems": [
    "C75_decode_complete",
    "C75_decode_raw_complete",
    "C75_decode_raw_no_validation_complete",
    "C75_valid_iff",
    "C75_verifies_standard"
   ],
   "note": "Assumes the allocations and appends succeed. What verifying means is the standards' verification (SpecJwa.v) for every family; for Ed25519 keys that are not hexadecimal it is said in terms of what the key text is turned into. Reading of claims is over the tokens of the modelled jsmn; C31 and C45 relate these to JSON."
  },
  {
   "property": "C76",
   "status": "proved",
   "theorems": [
    "C76_encode_complete",
    "C76_issues_iff",
    "C76_undefined_iff",
    "C76_signing_standard"
   ],
   "note": "Assumes the allocations and appends succeed, that size_t has at least 15 bits, and that the key, the claims and the strings handed in can be read. Key parsing, digests and signing are the backend record of Env.v; for Ed25519 keys that are not hexadecimal the signature is said in terms of what the key text is turned into."
  },
  {
   "property": "C77",
   "status": "proved",
   "theorems": [
    "C77_authentic",
    "C77_issued_as_asked"
   ],
   "note": "What the backend verifies is taken as verified: a signature that verifies for a text nobody issued is the forgery of the first alternative, exhibited. Claims are compared up to the escapes of C18. Needs requests whose claims come out as JSON (C11) and, for a registered claim, that no additional claim of the request has a name starting with its name (C24); appends of the call succeed."
  },
  {
   "property": "C78",
   "status": "proved",
   "theorems": [
    "C78_decode_under_strain",
    "C78_decode_raw_under_strain",
    "C78_no_failure_hidden",
    "C78_never_made_valid",
    "C78_made_valid_refuted"
   ],
   "note": "The outcomes that want of memory adds are the relation decoding_short (Strain.v). C78_made_valid_refuted: without the proviso on names, one refused append makes a token valid. What the raw function hands out of the parts together with OUT_OF_MEM is left open; which refused request leads to which outcome is not said."
  },
  {
   "property": "C79",
   "status": "proved",
   "theorems": [
    "C79_encode_under_strain",
    "C79_encode_returns",
    "C79_unstrained",
    "C79_signature_covers",
    "C79_groups",
    "C79_other_claims_refuted"
   ],
   "note": "The relation is encoding_short (EncStrain.v), with two parameters: may an allocation be refused, may an append be. That refused appends go by unnoticed one at a time is what chillbuff's interface allows; its source is not in the repository. C79_other_claims_refuted shows what this can lead to. That every outcome of the relation does occur is not shown."
  },
  {
   "property": "C80",
   "status": "partial",
   "theorems": [
    "C80_decode_outputs_partial",
    "C80_claims_length_refuted",
    "C80_decode_raw_outputs_partial",
    "C80_decode_raw_no_validation_outputs",
    "C80_raw_on_failure_refuted",
    "C80_encode_outputs",
    "C80_base64_outputs"
   ],
   "note": "False in two points of decode.h, both refuted with a witness: *out_claims_length is never written if out_claims is NULL (documented: 0), and the raw functions hand out, in allocated blocks, whatever they decoded before they failed (documented: written only if decoding succeeds). The rest holds for all arguments and worlds; for the raw functions the partial theorem says exactly what each pointer receives on failure: nothing for a part not reached, else the decoded part, never a part without the ones before it."
  },
  {
   "property": "C81",
   "status": "partial",
   "theorems": [
    "C81_traces",
    "C81_encode_partial",
    "C81_encode_unmatched",
    "C81_token_source",
    "C81_decode_partial",
    "C81_decode_unmatched",
    "C81_refuted"
   ],
   "note": "False: l8w8jwt_free is libc's free, whatever was replaced. Exact: in builds that replace malloc every successful l8w8jwt_encode hands a block of the application to libc's free, as does every one that signs in small-stack builds that replace calloc, and every successful l8w8jwt_decode in builds that replace calloc (and, for malloc, with more than 64 JSON tokens in a part); in all other builds all releases in all runs, including the caller's, are matched. Assumes chillbuff allocates with libc."
  },
  {
   "property": "C82",
   "status": "partial",
   "theorems": [
    "C82_free_claims",
    "C82_decode_partial",
    "C82_parts_left",
    "C82_encode_key",
    "C82_refuted"
   ],
   "note": "Holds of the claims' blocks and of copies of the key, in all runs. False of the decoded parts of the token, which hold the same texts: every successful decoding releases them as they are (C82_parts_left). The array of JSON tokens holds positions only and counts as holding nothing."
  },
  {
   "property": "C83",
   "status": "proved",
   "theorems": [
    "C83_encode",
    "C83_decode",
    "C83_free_claims",
    "C83_uses"
   ],
   "note": "Accesses are events of Trace.v: at each step all blocks it may touch (at least those the code touches). C81_traces shows that the functions with events are those of the model."
  },
  {
   "property": "C84",
   "status": "proved",
   "theorems": [
    "C84_decode",
    "C84_decode_raw",
    "C84_encode"
   ],
   "note": "Two-run property. Both calls are assumed to succeed and to get the memory they ask for (what refused memory does is C73, C78, C79)."
  },
  {
   "property": "C85",
   "status": "partial",
   "theorems": [
    "C85_timed",
    "C85_time_partial",
    "C85_time_forges",
    "C85_same_time_refuted",
    "C85_answers_alone"
   ],
   "note": "Refuted for a memcmp that stops at the first difference (decode.c:577): an attacker finds the signature in at most 256 questions a byte, for every key and text; without the times no attacker does in fewer questions than there are MACs. Counted are the byte pairs this memcmp examines; the verification of the other algorithms is in Mbed TLS and lib25519."
  },
  {
   "property": "C86",
   "status": "proved",
   "theorems": [
    "C86_reads_own_tokens"
   ],
   "note": "C18 without its condition on commas. The decoder's limit of 62 names and values is stated on the claims asked for, since the texts need not be JSON. As in C18 allocators do not fail and literal values are JSON; other literal values can make anything of the token."
  },
  {
   "property": "C87",
   "status": "partial",
   "theorems": [
    "C87_test_outcome",
    "C87_suite_passes",
    "C87_suite_in_time",
    "C87_passes_whenever_refuted",
    "C87_frees_refuted",
    "C87_wrong_alg_undefined",
    "C87_wrong_curves",
    "C87_malformed_tokens",
    "C87_argument_tests",
    "C87_memory_tests",
    "C87_slashes_test",
    "C87_rs256_test",
    "C87_fixed_tokens",
    "C87_fixed_tokens_sha2",
    "C87_hmac_tests"
   ],
   "note": "Proved of the 56 tests that issue and decode, of the first round of the wrong-algorithm test, of the four wrong-curve tests, of the four on malformed tokens (PropSha.v), and of those on arguments, Base64, parameters, claims and escaped slashes (PropArgTests.v). Two things one expects of a test suite are refuted: that it passes however long it takes (valid_nbf_tolerance and valid_iat_tolerance fail from 30 seconds on), and that it frees what it gets (three HMAC tests do not). The RS256 test is proved to its end (PropTestRaw.v), and the three HMAC tests from their fixed tokens on (PropTestFixed.v); that the fixed MACs are wrong ones is a hypothesis on the backend, shown for SHA-2. Missing: the later rounds of the wrong-algorithm test, which the undefined behaviour of the first one makes unreachable."
  },
  {
   "property": "C88",
   "status": "partial",
   "theorems": [
    "C88_one_key",
    "C88_issued_mac",
    "C88_checked_mac",
    "C88_keys_interchangeable",
    "C88_standard_backend",
    "C88_long_key_refuted"
   ],
   "note": "Proved for all keys no longer than a block of the hash and for longer ones that do not end in a NUL. Refuted for keys longer than a block that end in a NUL: the HMAC is that of the key without it, so tokens do not interoperate with other implementations. PropSha.v has SHA-2 and checks, as examples, that the model reproduces the HMAC tokens published in /repo/examples byte for byte, and the texts of all fourteen."
  },
  {
   "property": "C89",
   "status": "partial",
   "theorems": [
    "C89_only_what_is_asked",
    "C89_critical_refuted"
   ],
   "note": "The rule of RFC 7515 is refuted by a signed token with crit [b64]. Proved: two tokens alike in the members asked about get the same verdict. Tokens as in C53: presented, with the memory they need."
  },
  {
   "property": "C90",
   "status": "partial",
   "theorems": [
    "C90_audience_list",
    "C90_audience_list_refuted"
   ],
   "note": "The rule of RFC 7519 is refuted: audience [alice, bob], expected alice, flagged. Proved: exactly which text passes."
  },
  {
   "property": "C91",
   "status": "partial",
   "theorems": [
    "C91_first_counts",
    "C91_duplicates_refuted"
   ],
   "note": "The rule of RFC 7519 is refuted: sub alice, then sub mallory, is valid for alice. Proved: the first one decides."
  },
  {
   "property": "C92",
   "status": "partial",
   "theorems": [
    "C92_dates_of_other_kinds",
    "C92_kinds_refuted"
   ],
   "note": "Refuted: sub null passes for the text null, exp a string and nbf false are taken as dates. Proved: how each value is read."
  },
  {
   "property": "C93",
   "status": "partial",
   "theorems": [
    "C93_same_tokenizer",
    "C93_at_most_quadratic",
    "C93_at_least_quadratic_in_members",
    "C93_linear_refuted"
   ],
   "note": "Linear is refuted (for every factor a JSON text). Proved: both quadratic bounds, and that the counting pass is linear. Counts are iterations of the loops of jsmn 1.1.0 without JSMN_PARENT_LINKS, which the project does not define; the counted tokenizer is proved equal to the one of the model."
  },
  {
   "property": "C94",
   "status": "partial",
   "theorems": [
    "C94_issued_utf8",
    "C94_read_utf8",
    "C94_unchecked_refuted"
   ],
   "note": "Refuted: a token with a payload that is not UTF-8 is issued, and one is accepted as VALID and its broken value handed out. Proved: issued texts are UTF-8 exactly if the caller's are, and what is read from UTF-8 is UTF-8. Issuing under the hypotheses of C76, reading under those of C31."
  },
  {
   "property": "C95",
   "status": "partial",
   "theorems": [
    "C95_c_locale",
    "C95_not_asked",
    "C95_same_verdict_partial",
    "C95_same_raw_verdict_partial",
    "C95_locale_refuted"
   ],
   "note": "Refuted twice: a type check passes in the C locale and fails in a Turkish one; an expiry date with a no-break space in front is out of date in the C locale and in time in another. Proved: equality for every locale without those checks, and with them for integer dates and types of the same lower case. Both l8w8jwt_decode and l8w8jwt_decode_raw; the third function validates nothing."
  },
  {
   "property": "C96",
   "status": "proved",
   "theorems": [
    "C96_threads"
   ],
   "note": "Each thread runs in a world of its own; what it has in common with the others are addresses. The steps are the heap events of Trace.v (at least the accesses of the code); that the caller's blocks are only read, not written, is not in the trace. Hypothesis: the allocator hands out no address in use; C96_possible shows that there is such an allocator for all threads and schedules, C96_case one that reuses addresses. Not modelled: state inside mbedtls, and the caller changing its blocks meanwhile."
  },
  {
   "property": "C97",
   "status": "partial",
   "theorems": [
    "C97_int64",
    "C97_same",
    "C97_same_unsigned_partial",
    "C97_last_seconds",
    "C97_type_refuted"
   ],
   "note": "Refuted with one witness for each of the three ways to go wrong; equality proved for every type that holds the times compared, the undefined last seconds of a 32-bit clock for all tokens. The encoder converts to uint64_t and is the same for all types."
  },
  {
   "property": "C98",
   "status": "partial",
   "theorems": [
    "C98_never_expired",
    "C98_not_yet",
    "C98_unread_refuted"
   ],
   "note": "Refuted: a token that expired in 1970 is VALID if only exp is checked. Proved for all tokens: expiry is never flagged, nbf and iat always are."
  },
  {
   "property": "C99",
   "status": "partial",
   "theorems": [
    "C99_same_decoding",
    "C99_same_raw_decoding",
    "C99_same_cutting",
    "C99_same_encoding",
    "C99_builds_refuted"
   ],
   "note": "Refuted with one witness for each way in which builds differ; proved with these ways as the only exceptions, which name the build that goes wrong and how. The backend (mbedtls, checknum, jsmn) is the same for both builds."
  },
  {
   "property": "C100",
   "status": "partial",
   "theorems": [
    "C100_unique_exactly",
    "C100_unique_without_claims",
    "C100_unique_refuted"
   ],
   "note": "Refuted: a request with the additional claims alg (header) and sub (payload) is carried out. Proved: exactly when names are unique, for the requests of C11."
  },
  {
   "property": "C101",
   "status": "partial",
   "theorems": [
    "C101_stands_for_its_key",
    "C101_raw_stands_for_its_key",
    "C101_marked_keys_refused",
    "C101_raw_marked_keys_refused",
    "C101_marked_secret_refuted"
   ],
   "note": "Proved: for RS, PS and ES only the public key read from the key counts. Refuted: an HMAC secret that contains the certificate marker signs but does not verify."
  },
  {
   "property": "C102",
   "status": "proved",
   "theorems": [
    "C102_stands_for_its_key",
    "C102_password_ignored",
    "C102_wrong_password"
   ],
   "note": "Requests whose strings and key can be read; keys of RS, PS and ES that with their NUL fit into 8192 bytes (C39). Same token: for the same random numbers; the backend is a function (DESIGN.md)."
  },
  {
   "property": "C103",
   "status": "partial",
   "theorems": [
    "C103_reads",
    "C103_identity_is_read",
    "C103_time_is_read",
    "C103_type_is_read",
    "C103_payload_refuted"
   ],
   "note": "Proved: checks and lookups agree, for all accepted tokens. Refuted: the entry may be a header parameter."
  },
  {
   "property": "C104",
   "status": "proved",
   "theorems": [
    "C104_asking_less",
    "C104_raw_asking_less",
    "C104_asking_twice",
    "C104_raw_asking_twice",
    "C104_valid_twice"
   ],
   "note": "From the same heap; undefined outcomes included: a call that asks for all is undefined only if one of the two is."
  }
 ]
}
