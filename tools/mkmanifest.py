#!/usr/bin/env python3
"""Write MANIFEST.json from the table below and properties.jsonl (run in /verif)."""
import json
C = {}
def c(pid, status, theorems, note):
    C[pid] = dict(property=pid, status=status, theorems=theorems.split(), note=note)

c("C01", "proved", "C01_base64_round_trip", "Both alphabets; any heap state in which the decoder's single allocation succeeds.")
c("C02", "proved", "C02_encoder_emits_rfc4648", "Against a bit-level RFC 4648 specification (SpecB64.v); url mode up to INT_MAX output characters (see C05).")
c("C03", "proved", "C03_encoder_buffer_safe", "For every size_t length below the counter limit of C05.")
c("C04", "proved", "C04_encoder_overflow_exact", "Exact for any size_t width of at least 6 bits.")
c("C05", "partial", "C05_encoder_defined_refuted C05_encoder_defined_partial C05_encoder_defined_32bit_partial", "Refuted: the int line_length overflows for url inputs of 3*2^29 bytes; exact iff proved, and full property for 32-bit size_t.")
c("C06", "proved", "C06_decoder_memory_safe", "Every byte string, every allocator outcome.")
c("C07", "proved", "C07_decoder_never_empty", "")
c("C08", "partial", "C08_decoder_rejects_foreign_refuted C08_decoder_skips_foreign_partial", "Refuted: foreign characters are skipped. Exact behaviour proved instead.")
c("C09", "partial", "C09_decoded_nul_terminated_refuted C09_decoded_nul_terminated_partial", "Refuted for non-canonical text; byte always in bounds, zero for canonical text.")

c("C10", "proved", "C10_no_json_injection C10_string_body_closed C10_write_claims_defined C10_non_ascii_undefined", "Whole claim arrays against an RFC 8259 string grammar with denotation; buffer growth assumed to succeed (C34). Where char is signed a non-ASCII character is undefined behaviour (C10_non_ascii_undefined), so the text is only defined for ASCII there.")
c("C12", "partial", "C12_escape_round_trip_refuted C12_escape_round_trip_partial", "Refuted: control characters escaped as \\u00xx and DEL are not unescaped. Exact iff proved: a key/value pair survives iff it contains none of them.")
c("C13", "proved", "C13_unescape_in_bounds", "Every type, text, and allocator outcome; lengths below the size_t limit.")
c("C35", "partial", "C35_get_claim_refuted C35_get_claim_prefix_partial C35_get_claim_exact_partial", "Refuted: matches are by prefix. Exact behaviour (first claim whose key starts with the requested key) and the exact-match property when no key properly extends the requested one.")
c("C36", "partial", "C36_strncmpic_refuted C36_strncmpic_empty_refuted C36_strncmpic_defined_refuted C36_strncmpic_partial C36_strncmpic_degenerate_partial", "Refuted for n = 0 and for two empty strings (-1), and undefined for non-ASCII with signed char; proved otherwise.")
c("C37", "partial", "C37_hexstr2bin_rejects_refuted C37_hexstr2bin_value_partial C37_hexstr2bin_safe_partial C37_hexstr2bin_codes_partial", "Conversion, bounds and length errors proved; rejection of non-hexadecimal text refuted.")
c("C47", "proved", "C47_free_claims C47_free_claims_null", "For every claim array that owns its blocks; decode hands out such arrays (C32).")
c("C48", "proved", "C48_version_functions", "")

c("C11", "partial", "C11_header_and_payload_partial C11_json_exactly_when C11_not_json_refuted", "Refuted: a comma is missing (or too many) for a registered claim given with length 0 next to additional claims, or for claim arrays that contribute no text. Proved for all other parameter sets, and exactly characterised: the segment is a JSON object iff the comma condition holds. Other-typed claim values are required to be JSON values.")
c("C14", "proved", "C14_token_shape", "Buffer growth (chillbuff_push_back) assumed to succeed; malloc/calloc may fail.")
c("C15", "proved", "C15_header_names_algorithm", "Against the JWA table of SpecJwa.v; every env.")
c("C16", "proved", "C16_unknown_algorithm", "Every integer id, every allocator outcome.")
c("C17", "partial", "C17_unsuitable_keys_partial C17_non_hex_key_refuted", "RSA and EC keys proved; EdDSA keys are 128 characters but need not be hexadecimal (refuted).")
c("C33", "proved", "C33_encode_frees_everything", "Every allocator outcome including failing buffer growth.")
c("C34", "partial", "C34_claims_all_or_nothing_partial C34_claims_silently_dropped_refuted", "Refuted: failures inside l8w8jwt_write_claims are ignored and the claims are dropped.")
c("C38", "proved", "C38_validate_encoding_params C38_validate_decoding_params C38_rejected_untouched C38_result_pointers C38_params_init", "")
c("C39", "partial", "C39_key_over_read_refuted C39_key_in_bounds_partial", "Refuted at the maximal length without NUL; proved otherwise.")
c("C40", "proved", "C40_hmac_key_nul_sign C40_hmac_key_nul_verify", "")
c("C41", "partial", "C41_signature_buffer_partial C41_encode_key_buffer_refuted C41_decode_key_buffer_refuted", "Refuted for the key buffer (zeroize through NULL).")
c("C42", "partial", "C42_time_text_partial C42_negative_time_refuted", "Non-negative times proved; negative ones refuted.")
c("C44", "proved", "C44_fixed_width_signatures C44_decoder_splits", "")
c("C19", "partial", "C19_signature_enforced_partial C19_signature_exact_partial C19_signature_enforced_refuted", "The flag is exactly the verdict on the bytes the code looks at; these are the decoded signature if it has the right length. Refuted for other lengths.")
c("C20", "proved", "C20_token_cannot_choose", "")
c("C21", "partial", "C21_unsupported_alg_refuted C21_unsupported_alg_partial", "Refuted for every unsupported id: no signature check takes place.")
c("C22", "partial", "C22_hmac_compared_partial C22_hmac_compared_refuted", "Equality for signatures of the size of the MAC; refuted for longer and shorter ones.")
c("C24", "partial", "C24_identity_claims_partial C24_identity_claims_refuted", "Exact for tokens in which no claim name extends the checked one and claims of that name agree; in general the code checks the first claim whose name starts with it, so the claim is refuted in both directions.")
c("C25", "partial", "C25_expiry_partial C25_expiry_refuted", "Exact for decimal values of any size when no claim name extends exp; refuted for prefix matches (expires).")
c("C26", "partial", "C26_not_before_issued_at_partial C26_not_before_refuted", "As C25.")
c("C27", "partial", "C27_type_partial C27_type_refuted", "Exact for lengths beyond the expected string; a prefix check for its own length, and always failing for length 0.")
c("C28", "proved", "C28_only_requested_flags", "")
c("C23", "partial", "C23_decode_defined_partial C23_decode_raw_defined_partial C23_no_validation_defined C23_decode_defined_refuted", "Defined behaviour proved for every token whose header and payload have at most 62 tokens (or are JSON objects not ending in a container) whose signature and key fit the algorithm and, if typ is validated and char is signed, whose typ claims are ASCII; every excluded case is exhibited as undefined behaviour. The exact set of tokens is characterised in C74.")
c("C32", "partial", "C32_decode_frees_partial C32_decode_raw_frees_partial C32_decode_raw_no_validation_frees C32_json_tokens_freed C32_json_tokens_freed_raw C32_unclosed_tokens_leak C32_decode_frees_refuted", "Proved when no chillbuff_push_back fails and the tokenizer counts the token's JSON right, which is shown for all JSON objects; both leaks that occur otherwise are exhibited, the first for every token with an unclosed object of more than 64 values and names.")
c("C31", "partial", "C31_members_partial C31_members_refuted", "Proved for every call that succeeds on JSON objects of any size, up to \\u escapes, which stay as they are, if the appends to the claims buffer succeed. Refuted beyond: \\u escapes are not decoded; on more than 64 tokens ending in an array the call is undefined (read behind the token array; C52, C74 say when).")
c("C45", "partial", "C45_object_partial C45_json_object_partial C45_object_refuted", "An accepted text starts with a brace and has matching brackets, or has no token at all; a JSON text that is accepted is an object. Being JSON is refuted.")
c("C46", "partial", "C46_histories_partial C46_histories_refuted", "No double free in any history; nothing but the client's blocks remains under the conditions of C32, refuted without them.")
c("C29", "proved", "C29_failure_is_not_validity", "")
c("C30", "proved", "C30_decode_and_raw C30_raw_and_no_validation", "Of executions that return (no undefined behaviour).")
c("C43", "partial", "C43_three_segments_partial C43_three_segments_refuted", "At least two dots and no empty segment; refuted for further dots.")
c("C49", "partial", "C49_encode_memory_safe_partial C49_undefined_refuted", "Proved under the stated restrictions; each shown necessary.")

c("C18", "proved", "C18_round_trip", "For allocators that do not fail, parameters for which the comma logic is right (C11), JSON literal values and texts within the decoder's token limit. Strings come back as [comes_back] says: unchanged in the invertible fragment, control characters as their \\u escape.")
c("C51", "proved", "C51_issued_tokens", "Under the conditions of C18, for expected strings compared with issued strings in the invertible fragment, and provided no additional claim's name starts with the name checked (the lookup is by prefix, C24).")
c("C50", "partial", "C50_valid_tokens_accepted_partial C50_valid_tokens_accepted_refuted", "For texts within the decoder's token limit (C31) and allocators that do not fail. Refuted beyond the limit: a properly signed token with 64 JSON values and names makes the call read past its token array.")
c("C52", "partial", "C52_token_array_partial C52_overlong_tokens_over_read C52_token_array_refuted", "Exact for JSON object texts: inside the array up to 62 values and names or if the last member is flat; for every larger text ending in an array or object the code reads past the token array, for every token carrying it whatever its signature. Arbitrary texts, JSON or not: C74.")
c("C53", "partial", "C53_verdict_partial C53_verdict_as_coded_partial C53_verdict_refuted", "Proved both ways for tokens without unicode escapes and with signatures of the algorithm's length: against the first member, header before payload, whose name starts with the name asked for; hence as stated when the names are used as intended. Refuted otherwise: a header member sub makes a token about mallory pass as alice; an escaped alice is not recognised.")
c("C54", "proved", "C54_encode C54_decode C54_decode_raw C54_base64 C54_repeatable", "Two-run relation over all heaps and allocation outcomes; the crypto backend, clock and token-array contents are the same in both runs (for the latter see C55).")
c("C55", "partial", "C55_uninitialised_tokens_partial C55_uninitialised_tokens_refuted", "Proved for every token whose header and payload have at most 62 JSON tokens each or are objects whose last member is flat. Refuted beyond: with 63 tokens and a nested last member, stale stack contents decide between success and reading past the array.")
c("C56", "proved", "C56_decode_no_corruption C56_decode_raw_no_corruption C56_encode_no_corruption C56_base64_no_corruption C56_helpers_no_corruption C56_loops_end", "No assumption on arguments or allocator. Assumed of the libraries: a failing chillbuff_init leaves a zeroed buffer (or does not fail), RSA moduli are at most 4096 bytes. l8w8jwt_free_claims is not included: what it frees is the caller's choice (C32).")
c("C57", "proved", "C57_decode_two_times C57_decode_raw_two_times C57_decode_interval", "For executions without undefined behaviour (a time plus tolerance outside 64 bits is one); the interval theorem also shows that none arises between two times where none does.")
c("C58", "partial", "C58_token_end_partial C58_token_end_refuted", "Proved for tokens with two dots (and no NUL before them) within the given length. Refuted otherwise: the dots are searched with strchr, and one behind the length makes the signature length wrap around.")
c("C59", "partial", "C59_foreign_characters_partial C59_respellable_refuted", "Refuted for every token: a character outside the alphabet appended to it changes nothing. Exactly: texts whose signature parts agree up to such characters have the same outcome.")
c("C60", "partial", "C60_numeric_date_as_coded_partial C60_numeric_date_partial C60_numeric_date_refuted", "Exactly what is compared is proved for all JSON numbers: the integer part of the mantissa. That is right for integers without exponent and for non-negative fractional expiry dates. Refuted for exponents (nbf 2e9 is accepted at 1000) and fractional nbf/iat (up to a second early).")
c("C61", "partial", "C61_same_token_same_claims_partial C61_same_token_other_claims_refuted", "Proved for all pairs of requests whose claims come out as JSON and whose additional payload claims avoid the seven registered names (without the latter: both ask for the same list of members). Refuted otherwise: a registered claim given as an additional claim looks the same, and an unchecked non-string value can pass for several claims.")
c("C62", "partial", "C62_unsuitable_keys_partial C62_key_facts_ignored C62_unsuitable_keys_refuted", "Proved: the key could be parsed and is an RSA key for PS, an EC key for ES, 64 hex digits for EdDSA (hex digits assumed, C37). Refuted: decoding behaves the same whatever the size, the curve and (for RS) the kind of the key, for every backend; with a witness for each of the thirteen other algorithms.")
c("C63", "proved", "C63_encode_contexts C63_decode_contexts C63_decode_raw_contexts", "On a second transcription of the functions that records these operations (Context.v) and is proved to compute what the first one does. An operation that may allocate inside a context counts as filling it even if it fails.")
c("C64", "proved", "C64_encode_wipes C64_decode_wipes C64_decode_raw_wipes", "As C63. The library's own copies; what mbedtls wipes inside its contexts is its business.")
c("C65", "proved", "C65_decode_memory C65_decode_raw_memory C65_no_validation_memory C65_token_array", "The growth of the claims buffer itself is chillbuff's (its element count is bounded). Tokenizer: the model of jsmn.")
c("C66", "partial", "C66_keygen_seed_partial C66_keygen_seed_refuted", "The seed bytes are multiplied by digest bytes modulo 256. Proved: exactly what becomes of each byte, how many values it can still take, and that no entropy is lost iff all 64 digest bytes are odd. Refuted: that different seeds stay different. SHA-512 and ref10 key generation are parameters.")
c("C67", "partial", "C67_encode_program_partial C67_decode_program_partial C67_rs256_program_partial C67_programs_refuted", "Proved: an encoder runs to its end iff encode succeeds, then prints the whole token and has freed it; a decoder runs into undefined behaviour only if decode does or its arguments are rejected, and gives everything back (conditions of C32) except the HS256 one on success. Refuted: the encoders print an uninitialised pointer when encode fails, the RS256 decoder prints NULL for a token that does not decode, the HS256 decoder leaks the claims.")
c("C68", "partial", "C68_example_verdict C68_accepted_in_time C68_only_signed_partial C68_examples_refuted", "The verdict is given exactly, for allocators that do not fail and matching keys. Refuted: the RS512 decoder asks for an nbf claim the encoder does not set, so it flags every token; the HS256 decoder passes algorithm -1, which skips the signature, so it accepts forged tokens. The others accept only verified signatures (as read by the code, C19).")
c("C69", "partial", "C69_decode_codes_partial C69_decode_raw_codes_partial C69_no_validation_codes C69_memory_in_claims_refuted", "As stated, except that a lack of memory may also show as DECODE_FAILED_INVALID_TOKEN_FORMAT; refuted that it cannot: running out of memory while copying the claims of a valid token is reported as an invalid format. Exact for the function without validation. The model of jsmn is the tokenizer, and checknum is assumed right.")
c("C70", "partial", "C70_encode_codes_partial C70_memory_refuted", "Each code traced to its cause, with two exceptions, both refuting that a lack of memory always shows as OUT_OF_MEM: while encoding the signature it is reported as BASE64_FAILURE, and while writing claims as success, with a token in which a whole group of claims is missing. Growth of chillbuff's arrays is assumed to succeed.")
c("C71", "partial", "C71_claims_kept_partial C71_members_kept_partial C71_kept_refuted", "Same claims when decoded again: proved for claims without DEL, under the conditions of C18. Same JSON meaning: proved for members without \\u escapes. Refuted otherwise: DEL comes back as six characters, and a member written \\u0041 is re-encoded as a backslash and u0041.")
c("C72", "proved", "C72_encode_allocations C72_token_length", "Constant: 6251 bytes, of which up to 5463 are the signature. Holds for every outcome of allocations and appends; the number eleven and the factor eight are reached.")
c("C73", "proved", "C73_only_own_requests C73_as_with_unlimited_memory C73_encode_enough C73_decode_enough C73_no_validation_enough", "The bounds are on malloc and calloc; the appends (realloc in chillbuff) are assumed to succeed in the three corollaries. Also used to weaken the hypotheses of C10-C12, C14, C15, C18, C31, C32, C34, C44, C51, C61, C70, C71 from every request to the requests the call makes.")
c("C74", "proved", "C74_parse_claims_exact C74_decode_exact C74_decode_raw_exact C74_harmless_defined", "Both directions, with the kind of undefined behaviour; assumes the allocations and appends succeed. C74_harmless_defined drops the former for the tokens that are handled. The tokens are those of the modelled jsmn.")
c("C75", "proved", "C75_decode_complete C75_decode_raw_complete C75_decode_raw_no_validation_complete C75_valid_iff C75_verifies_standard", "Assumes the allocations and appends succeed. What verifying means is the standards' verification (SpecJwa.v) for every family; for Ed25519 keys that are not hexadecimal it is said in terms of what the key text is turned into. Reading of claims is over the tokens of the modelled jsmn; C31 and C45 relate these to JSON.")
c("C76", "proved", "C76_encode_complete C76_issues_iff C76_undefined_iff C76_signing_standard", "Assumes the allocations and appends succeed, that size_t has at least 15 bits, and that the key, the claims and the strings handed in can be read. Key parsing, digests and signing are the backend record of Env.v; for Ed25519 keys that are not hexadecimal the signature is said in terms of what the key text is turned into.")
c("C77", "proved", "C77_authentic C77_issued_as_asked", "What the backend verifies is taken as verified: a signature that verifies for a text nobody issued is the forgery of the first alternative, exhibited. Claims are compared up to the escapes of C18. Needs requests whose claims come out as JSON (C11) and, for a registered claim, that no additional claim of the request has a name starting with its name (C24); appends of the call succeed.")
c("C78", "proved", "C78_decode_under_strain C78_decode_raw_under_strain C78_no_failure_hidden C78_never_made_valid C78_made_valid_refuted", "The outcomes that want of memory adds are the relation decoding_short (Strain.v). C78_made_valid_refuted: without the proviso on names, one refused append makes a token valid. What the raw function hands out of the parts together with OUT_OF_MEM is left open; which refused request leads to which outcome is not said.")
c("C79", "proved", "C79_encode_under_strain C79_encode_returns C79_unstrained C79_signature_covers C79_groups C79_other_claims_refuted", "The relation is encoding_short (EncStrain.v), with two parameters: may an allocation be refused, may an append be. That refused appends go by unnoticed one at a time is what chillbuff's interface allows; its source is not in the repository. C79_other_claims_refuted shows what this can lead to. That every outcome of the relation does occur is not shown.")
c("C80", "partial", "C80_decode_outputs_partial C80_claims_length_refuted C80_decode_raw_outputs_partial C80_decode_raw_no_validation_outputs C80_raw_on_failure_refuted C80_encode_outputs C80_base64_outputs", "False in two points of decode.h, both refuted with a witness: *out_claims_length is never written if out_claims is NULL (documented: 0), and the raw functions hand out, in allocated blocks, whatever they decoded before they failed (documented: written only if decoding succeeds). The rest holds for all arguments and worlds; for the raw functions the partial theorem says exactly what each pointer receives on failure: nothing for a part not reached, else the decoded part, never a part without the ones before it.")
c("C81", "partial", "C81_traces C81_encode_partial C81_encode_unmatched C81_token_source C81_decode_partial C81_decode_unmatched C81_refuted", "False: l8w8jwt_free is libc's free, whatever was replaced. Exact: in builds that replace malloc every successful l8w8jwt_encode hands a block of the application to libc's free, as does every one that signs in small-stack builds that replace calloc, and every successful l8w8jwt_decode in builds that replace calloc (and, for malloc, with more than 64 JSON tokens in a part); in all other builds all releases in all runs, including the caller's, are matched. Assumes chillbuff allocates with libc.")
c("C82", "partial", "C82_free_claims C82_decode_partial C82_parts_left C82_encode_key C82_refuted", "Holds of the claims' blocks and of copies of the key, in all runs. False of the decoded parts of the token, which hold the same texts: every successful decoding releases them as they are (C82_parts_left). The array of JSON tokens holds positions only and counts as holding nothing.")
c("C83", "proved", "C83_encode C83_decode C83_free_claims C83_uses", "Accesses are events of Trace.v: at each step all blocks it may touch (at least those the code touches). C81_traces shows that the functions with events are those of the model.")
c("C84", "proved", "C84_decode C84_decode_raw C84_encode", "Two-run property. Both calls are assumed to succeed and to get the memory they ask for (what refused memory does is C73, C78, C79).")
c("C85", "partial", "C85_timed C85_time_partial C85_time_forges C85_same_time_refuted C85_answers_alone", "Refuted for a memcmp that stops at the first difference (decode.c:577): an attacker finds the signature in at most 256 questions a byte, for every key and text; without the times no attacker does in fewer questions than there are MACs. Counted are the byte pairs this memcmp examines; the verification of the other algorithms is in Mbed TLS and lib25519.")
c("C86", "proved", "C86_reads_own_tokens", "C18 without its condition on commas. The decoder's limit of 62 names and values is stated on the claims asked for, since the texts need not be JSON. As in C18 allocators do not fail and literal values are JSON; other literal values can make anything of the token.")
c("C87", "partial", "C87_test_outcome C87_suite_passes C87_suite_in_time C87_passes_whenever_refuted C87_frees_refuted C87_wrong_alg_undefined C87_wrong_curves C87_malformed_tokens C87_argument_tests C87_memory_tests C87_slashes_test C87_rs256_test C87_fixed_tokens C87_fixed_tokens_sha2 C87_hmac_tests", "Proved of the 56 tests that issue and decode, of the first round of the wrong-algorithm test, of the four wrong-curve tests, of the four on malformed tokens (PropSha.v), and of those on arguments, Base64, parameters, claims and escaped slashes (PropArgTests.v). Two things one expects of a test suite are refuted: that it passes however long it takes (valid_nbf_tolerance and valid_iat_tolerance fail from 30 seconds on), and that it frees what it gets (three HMAC tests do not). The RS256 test is proved to its end (PropTestRaw.v), and the three HMAC tests from their fixed tokens on (PropTestFixed.v); that the fixed MACs are wrong ones is a hypothesis on the backend, shown for SHA-2. Missing: the later rounds of the wrong-algorithm test, which the undefined behaviour of the first one makes unreachable.")
c("C88", "partial", "C88_one_key C88_issued_mac C88_checked_mac C88_keys_interchangeable C88_standard_backend C88_long_key_refuted", "Proved for all keys no longer than a block of the hash and for longer ones that do not end in a NUL. Refuted for keys longer than a block that end in a NUL: the HMAC is that of the key without it, so tokens do not interoperate with other implementations. PropSha.v has SHA-2 and checks, as examples, that the model reproduces the HMAC tokens published in /repo/examples byte for byte, and the texts of all fourteen.")
c("C89", "partial", "C89_only_what_is_asked C89_critical_refuted", "The rule of RFC 7515 is refuted by a signed token with crit [b64]. Proved: two tokens alike in the members asked about get the same verdict. Tokens as in C53: presented, with the memory they need.")
c("C90", "partial", "C90_audience_list C90_audience_list_refuted", "The rule of RFC 7519 is refuted: audience [alice, bob], expected alice, flagged. Proved: exactly which text passes.")
c("C91", "partial", "C91_first_counts C91_duplicates_refuted", "The rule of RFC 7519 is refuted: sub alice, then sub mallory, is valid for alice. Proved: the first one decides.")
c("C92", "partial", "C92_dates_of_other_kinds C92_kinds_refuted", "Refuted: sub null passes for the text null, exp a string and nbf false are taken as dates. Proved: how each value is read.")
c("C93", "partial", "C93_same_tokenizer C93_at_most_quadratic C93_at_least_quadratic_in_members C93_linear_refuted", "Linear is refuted (for every factor a JSON text). Proved: both quadratic bounds, and that the counting pass is linear. Counts are iterations of the loops of jsmn 1.1.0 without JSMN_PARENT_LINKS, which the project does not define; the counted tokenizer is proved equal to the one of the model.")
c("C94", "partial", "C94_issued_utf8 C94_read_utf8 C94_unchecked_refuted", "Refuted: a token with a payload that is not UTF-8 is issued, and one is accepted as VALID and its broken value handed out. Proved: issued texts are UTF-8 exactly if the caller's are, and what is read from UTF-8 is UTF-8. Issuing under the hypotheses of C76, reading under those of C31.")
c("C95", "partial", "C95_c_locale C95_not_asked C95_same_verdict_partial C95_same_raw_verdict_partial C95_locale_refuted", "Refuted twice: a type check passes in the C locale and fails in a Turkish one; an expiry date with a no-break space in front is out of date in the C locale and in time in another. Proved: equality for every locale without those checks, and with them for integer dates and types of the same lower case. Both l8w8jwt_decode and l8w8jwt_decode_raw; the third function validates nothing.")
c("C96", "proved", "C96_threads",
  "Each thread runs in a world of its own; what it has in common with the others are addresses. The steps are the heap events of Trace.v (at least the accesses of the code); that the caller's blocks are only read, not written, is not in the trace. Hypothesis: the allocator hands out no address in use; C96_possible shows that there is such an allocator for all threads and schedules, C96_case one that reuses addresses. Not modelled: state inside mbedtls, and the caller changing its blocks meanwhile.")
c("C97", "partial", "C97_int64 C97_same C97_same_unsigned_partial C97_last_seconds C97_type_refuted", "Refuted with one witness for each of the three ways to go wrong; equality proved for every type that holds the times compared, the undefined last seconds of a 32-bit clock for all tokens. The encoder converts to uint64_t and is the same for all types.")
c("C98", "partial", "C98_never_expired C98_not_yet C98_unread_refuted", "Refuted: a token that expired in 1970 is VALID if only exp is checked. Proved for all tokens: expiry is never flagged, nbf and iat always are.")
c("C99", "partial", "C99_same_decoding C99_same_raw_decoding C99_same_cutting C99_same_encoding C99_builds_refuted", "Refuted with one witness for each way in which builds differ; proved with these ways as the only exceptions, which name the build that goes wrong and how. The backend (mbedtls, checknum, jsmn) is the same for both builds.")
c("C100", "partial", "C100_unique_exactly C100_unique_without_claims C100_unique_refuted", "Refuted: a request with the additional claims alg (header) and sub (payload) is carried out. Proved: exactly when names are unique, for the requests of C11.")
c("C101", "partial", "C101_stands_for_its_key C101_raw_stands_for_its_key C101_marked_keys_refused C101_raw_marked_keys_refused C101_marked_secret_refuted", "Proved: for RS, PS and ES only the public key read from the key counts. Refuted: an HMAC secret that contains the certificate marker signs but does not verify.")

c("C102", "proved", "C102_stands_for_its_key C102_password_ignored C102_wrong_password", "Requests whose strings and key can be read; keys of RS, PS and ES that with their NUL fit into 8192 bytes (C39). Same token: for the same random numbers; the backend is a function (DESIGN.md).")

c("C103", "partial", "C103_reads C103_identity_is_read C103_time_is_read C103_type_is_read C103_payload_refuted", "Proved: checks and lookups agree, for all accepted tokens. Refuted: the entry may be a header parameter.")
c("C104", "proved", "C104_asking_less C104_raw_asking_less C104_asking_twice C104_raw_asking_twice C104_valid_twice", "From the same heap; undefined outcomes included: a call that asks for all is undefined only if one of the two is.")

ids = [json.loads(l)["id"] for l in open("properties.jsonl")]
claims = []
for i in ids:
    claims.append(C.get(i, dict(property=i, status="partial", theorems=[], note="proof in progress")))
open("MANIFEST.json", "w").write(json.dumps({"claims": claims}, indent=1) + "\n")
