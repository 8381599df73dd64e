{"id": "C01", "title": "Base64 round trip", "statement": "Decoding the string produced by l8w8jwt_base64_encode with the same url flag succeeds and returns exactly the original bytes and length.", "quantifier": "every non-empty byte string the encoder can handle, both alphabets (url flag zero / non-zero)", "why_tests_cant": "there are infinitely many inputs; the three tail lengths, the 72-column line wrapping and all byte values interact", "anchors": ["src/base64.c:l8w8jwt_base64_encode", "src/base64.c:l8w8jwt_base64_decode"]}
{"id": "C02", "title": "Base64 encoder emits RFC 4648", "statement": "With the url flag set l8w8jwt_base64_encode emits exactly the unpadded base64url text of RFC 4648 section 5 (bits regrouped by six, most significant first); with the flag clear it emits the padded standard base64 text, broken by a newline after every 72 characters and ended by a newline.", "quantifier": "every non-empty byte string, both url flags", "why_tests_cant": "agreement with a bit-level specification must hold for every length and byte value", "anchors": ["src/base64.c:l8w8jwt_base64_encode", "include/l8w8jwt/base64.h"]}
{"id": "C03", "title": "Base64 encoder stays inside its buffer", "statement": "A successful l8w8jwt_base64_encode never writes outside the buffer it allocated, the output is NUL-terminated at *out_length, and *out_length counts exactly the characters before the terminator; a failing call hands out nothing.", "quantifier": "every input length below the counter limit of C05, every allocator outcome, both url flags", "why_tests_cant": "the allocation formula (4n/3+4, +1/72, +1) must dominate the number of writes for every n", "anchors": ["src/base64.c:l8w8jwt_base64_encode"]}
{"id": "C04", "title": "Base64 encoder detects size overflow", "statement": "l8w8jwt_base64_encode returns L8W8JWT_OVERFLOW exactly when data_length*4 does not fit in size_t, and then allocates nothing; it never continues with a wrapped (too small) buffer size.", "quantifier": "every data_length representable in size_t, 32-bit and 64-bit size_t", "why_tests_cant": "inputs near SIZE_MAX cannot be materialised in a test", "anchors": ["src/base64.c:l8w8jwt_base64_encode"]}
{"id": "C05", "title": "Base64 encoder has no arithmetic undefined behaviour", "statement": "l8w8jwt_base64_encode has defined behaviour for every readable non-empty input whose encoded size fits in size_t.", "quantifier": "every readable input, both url flags", "why_tests_cant": "the internal line counter is an int that is never reset in url mode; it overflows only past 1.6 GB of input", "anchors": ["src/base64.c:l8w8jwt_base64_encode (line_length)"]}
{"id": "C06", "title": "Base64 decoder is memory safe on every input", "statement": "For every readable input string l8w8jwt_base64_decode never reads outside the given data_length bytes, never writes outside its allocation, never frees twice, and on any error return leaves no allocated block behind.", "quantifier": "every byte string and length, both url flags, every allocator outcome", "why_tests_cant": "arbitrary (hostile) text with padding, junk and truncation in any position", "anchors": ["src/base64.c:l8w8jwt_base64_decode"]}
{"id": "C07", "title": "Base64 decoder never returns an empty result", "statement": "If l8w8jwt_base64_decode succeeds then 1 <= *out_length and *out_length <= 3*ceil(k/4) where k is the number of alphabet or '=' characters in the input.", "quantifier": "every input string, both url flags", "why_tests_cant": "l8w8jwt_decode skips signature verification when the decoded signature is empty, so one empty success anywhere would be an authentication bypass", "anchors": ["src/base64.c:l8w8jwt_base64_decode", "src/decode.c:l8w8jwt_verify_signature"]}
{"id": "C08", "title": "Base64 decoder rejects characters outside the alphabet", "statement": "l8w8jwt_base64_decode fails on any input containing a character that is neither in the selected alphabet nor padding.", "quantifier": "every input string, both url flags", "why_tests_cant": "any single accepted foreign character breaks token canonicity; tests sample a few", "anchors": ["src/base64.c:l8w8jwt_base64_decode"]}
{"id": "C09", "title": "Decoded buffer is NUL-terminated at its length", "statement": "After a successful l8w8jwt_base64_decode the byte at index *out_length of the output buffer is readable and zero, as the header promises.", "quantifier": "every input the decoder accepts", "why_tests_cant": "depends on the unused low bits of the last character of the input", "anchors": ["src/base64.c:l8w8jwt_base64_decode", "include/l8w8jwt/base64.h"]}
{"id": "C10", "title": "String claims cannot inject JSON", "statement": "The text l8w8jwt_write_claims writes between the quotes for a key or a string value is a JSON string body (RFC 8259) that denotes exactly the caller's bytes: it contains no raw quote, control character or dangling backslash.", "quantifier": "every key and value byte string (on platforms where the lookup is defined), any number of claims", "why_tests_cant": "security against injection is a statement about all strings", "anchors": ["src/claim.c:l8w8jwt_escape_claim_string", "src/claim.c:l8w8jwt_write_claims"]}
{"id": "C11", "title": "Header and payload are JSON objects with exactly the requested members", "statement": "When l8w8jwt_encode succeeds, the first segment decodes to a JSON object whose members are alg, typ (kty, crv) followed by the additional header claims, and the second to a JSON object whose members are iat, nbf, exp, sub, iss, aud, jti (those given) followed by the additional payload claims, in order and nothing else.", "quantifier": "every parameter set: any subset of the registered claims, any additional claims (allocation failures are the subject of C34)", "why_tests_cant": "comma placement depends on which of fourteen fields are set", "anchors": ["src/encode.c:write_header_and_payload", "src/claim.c:l8w8jwt_write_claims"]}
{"id": "C12", "title": "Claim strings survive encode then decode", "statement": "A string written by the encoder's escaping and read back by the decoder's unescaping is the original string.", "quantifier": "every key and string value", "why_tests_cant": "the escape and unescape tables must be inverse on every byte string, including adjacent escapes", "anchors": ["src/claim.c:l8w8jwt_escape_claim_string", "src/decode.c:l8w8jwt_unescape_string"]}
{"id": "C13", "title": "Claim unescaping stays inside its buffers", "statement": "Turning any JSON member into a claim never writes past the key_length+1 / value_length+1 bytes allocated for it, and both strings come out NUL-terminated at their stored length.", "quantifier": "every key text and value text, every allocator outcome", "why_tests_cant": "hostile escape sequences at the very end of the text", "anchors": ["src/decode.c:l8w8jwt_unescape_string", "src/decode.c:l8w8jwt_unescape_claim"]}
{"id": "C14", "title": "Token shape", "statement": "A token returned by l8w8jwt_encode is three non-empty runs of URL-safe base64 characters separated by exactly two dots, NUL-terminated at *out_length, and the first two runs decode to the header and payload JSON.", "quantifier": "every parameter set for which encoding succeeds, every crypto backend; chillbuff growth does not fail (allocation failures are the subject of C34)", "why_tests_cant": "must hold for every claim content and every signature value", "anchors": ["src/encode.c:l8w8jwt_encode", "src/encode.c:write_token"]}
{"id": "C15", "title": "The header names the algorithm that signed", "statement": "In every token returned by l8w8jwt_encode the alg header member is the JWA name of params.alg and the third segment is the base64url text of the signature computed with that algorithm, the matching SHA-2 digest and the given key over exactly the bytes before the second dot.", "quantifier": "every algorithm, key, claim set and crypto backend; chillbuff growth does not fail (allocation failures are the subject of C34)", "why_tests_cant": "fourteen algorithms times unbounded inputs; a swapped digest or off-by-one in the signed range is invisible to a self round trip", "anchors": ["src/encode.c:write_header_and_payload", "src/encode.c:write_signature", "src/encode.c:md_info_from_alg"]}
{"id": "C16", "title": "Encoding refuses unknown algorithms", "statement": "If params.alg is not one of the fourteen supported ids (in particular -1 and the initial value -2) l8w8jwt_encode fails, returns no token and frees everything it allocated.", "quantifier": "every integer algorithm id and every other parameter, every allocator outcome", "why_tests_cant": "unbounded integer domain", "anchors": ["src/encode.c:write_header_and_payload", "src/encode.c:l8w8jwt_encoding_params_init"]}
{"id": "C17", "title": "Encoding refuses unsuitable keys", "statement": "l8w8jwt_encode never returns an RS*/PS* token signed with a non-RSA key or an RSA key below 2048 bits, nor an ES* token signed with a key that is not on the curve of that algorithm, nor an EdDSA token from a key that is not 128 hex digits.", "quantifier": "every key, key size, curve and crypto backend", "why_tests_cant": "quantifies over all keys and over the whole crypto library", "anchors": ["src/encode.c:write_signature"]}
{"id": "C18", "title": "Encode then decode round trip", "statement": "A token produced by l8w8jwt_encode is accepted by l8w8jwt_decode with the same algorithm and matching key: it returns L8W8JWT_SUCCESS, the signature flag is clear, and the claims are the header members then the payload members, with their keys, values and types, in order.", "quantifier": "every claim set in the decoder-invertible fragment, every key, every algorithm whose verify accepts what its sign produced", "why_tests_cant": "composition of escaping, JSON writing, base64, signing, splitting, verification, tokenising and unescaping over unbounded inputs", "anchors": ["src/encode.c:l8w8jwt_encode", "src/decode.c:l8w8jwt_decode"]}
{"id": "C19", "title": "Signature enforcement", "statement": "If params.alg is one of the supported algorithms and l8w8jwt_decode returns L8W8JWT_SUCCESS with the signature-failure flag clear, then the token's third segment, as decoded, passed that algorithm's verification with the caller's key over exactly the bytes before the second dot.", "quantifier": "every token text, key, algorithm, validation parameters, allocator outcome and crypto backend", "why_tests_cant": "soundness of verification is a statement about all attacker-chosen tokens", "anchors": ["src/decode.c:l8w8jwt_verify_signature", "src/decode.c:l8w8jwt_decode"]}
{"id": "C20", "title": "The token cannot choose its algorithm", "statement": "Which verification is performed is determined by params.alg and the key only; the token's own header (alg, jwk, kid...) never influences the signature verdict.", "quantifier": "every pair of tokens, keys and algorithms", "why_tests_cant": "algorithm-confusion attacks quantify over all attacker-chosen headers", "anchors": ["src/decode.c:l8w8jwt_verify_signature"]}
{"id": "C21", "title": "Decoding with an unsupported algorithm id never validates", "statement": "If params.alg is neither -1 (explicitly none) nor a supported algorithm, l8w8jwt_decode does not report L8W8JWT_VALID; in particular a params struct fresh from l8w8jwt_decoding_params_init (alg = -2) accepts no token.", "quantifier": "every integer algorithm id outside the supported set, every token", "why_tests_cant": "unbounded integer domain times all tokens", "anchors": ["src/decode.c:l8w8jwt_verify_signature", "src/decode.c:l8w8jwt_decoding_params_init", "src/decode.c:l8w8jwt_validate_decoding_params"]}
{"id": "C22", "title": "HMAC signatures are compared in full", "statement": "With HS256/384/512 a signature is accepted only if the decoded third segment equals the HMAC of the signing input byte for byte, including its length.", "quantifier": "every token and key", "why_tests_cant": "needs the exact length comparison for all signatures, including longer and shorter ones", "anchors": ["src/decode.c:l8w8jwt_verify_signature"]}
{"id": "C23", "title": "Decoding is memory safe on every token", "statement": "For every NUL-terminated token text l8w8jwt_decode performs no out-of-bounds access, null dereference, double free or other undefined behaviour.", "quantifier": "every token text (hostile included), key, algorithm, crypto backend", "why_tests_cant": "memory safety over all hostile inputs cannot be sampled", "anchors": ["src/decode.c:l8w8jwt_decode", "src/decode.c:l8w8jwt_parse_claims", "src/decode.c:l8w8jwt_verify_signature"]}
{"id": "C24", "title": "Identity claim validation is exact", "statement": "When validate_sub / validate_iss / validate_aud / validate_jti is given, the corresponding failure flag is set if and only if the token has no claim with exactly that name whose value is byte for byte the expected string.", "quantifier": "every claim list and expected string", "why_tests_cant": "equality over all strings, prefixes and duplicates", "anchors": ["src/decode.c:l8w8jwt_validate_claims", "src/claim.c:l8w8jwt_get_claim"]}
{"id": "C25", "title": "Expiry validation", "statement": "With validate_exp set, the EXP flag is set if and only if the exp claim is missing or now - exp_tolerance_seconds is later than the exp value.", "quantifier": "every clock value, tolerance and exp claim text (a decimal integer)", "why_tests_cant": "unbounded time values, including those around the 64-bit limits", "anchors": ["src/decode.c:l8w8jwt_validate_claims"]}
{"id": "C26", "title": "Not-before and issued-at validation", "statement": "With validate_nbf (validate_iat) set, the NBF (IAT) flag is set if and only if the claim is missing or now + tolerance is earlier than its value.", "quantifier": "every clock value, tolerance and claim text (a decimal integer)", "why_tests_cant": "unbounded time values", "anchors": ["src/decode.c:l8w8jwt_validate_claims"]}
{"id": "C27", "title": "Type validation", "statement": "With validate_typ set, the TYP flag is set if and only if the typ claim is missing or differs from the expected string ignoring ASCII case.", "quantifier": "every typ value, expected string and length", "why_tests_cant": "all string pairs and lengths", "anchors": ["src/decode.c:l8w8jwt_validate_claims", "src/util.c:l8w8jwt_strncmpic"]}
{"id": "C28", "title": "Only requested checks raise flags", "statement": "A validation flag can be raised only by the check the caller requested for it: each flag bit is independent, no other bit is ever set, and if nothing is requested and the signature verifies the result is L8W8JWT_VALID.", "quantifier": "every token, parameter set and clock", "why_tests_cant": "2^8 combinations of requests times all tokens", "anchors": ["src/decode.c:l8w8jwt_validate_claims", "include/l8w8jwt/decode.h:l8w8jwt_validation_result"]}
{"id": "C29", "title": "Failure is never mistaken for validity", "statement": "If l8w8jwt_decode or l8w8jwt_decode_raw returns anything but L8W8JWT_SUCCESS then *out_validation_result is not L8W8JWT_VALID if it was written at all, and no claims are handed out; the final flags are written only together with L8W8JWT_SUCCESS.", "quantifier": "every input, parameter set, allocator outcome and crypto backend", "why_tests_cant": "covers every error path of decoding", "anchors": ["src/decode.c:l8w8jwt_decode", "src/decode.c:l8w8jwt_decode_raw"]}
{"id": "C30", "title": "The three decode entry points agree", "statement": "l8w8jwt_decode and l8w8jwt_decode_raw return the same code and the same validation result for the same parameters; l8w8jwt_decode_raw and l8w8jwt_decode_raw_no_validation hand out the same header, payload and signature bytes whenever both succeed.", "quantifier": "every token and parameter set", "why_tests_cant": "relational property over all inputs", "anchors": ["src/decode.c:l8w8jwt_decode", "src/decode.c:l8w8jwt_decode_raw", "src/decode.c:l8w8jwt_decode_raw_no_validation"]}
{"id": "C31", "title": "Decoded claims are the JSON members", "statement": "When the header and payload are valid JSON objects, the claims handed out by l8w8jwt_decode are exactly the header members followed by the payload members, in order, with nested arrays and objects kept as raw text and the type field matching the JSON value kind.", "quantifier": "every pair of valid JSON objects (any nesting, whitespace, number syntax)", "why_tests_cant": "all JSON documents", "anchors": ["src/decode.c:l8w8jwt_parse_claims"]}
{"id": "C32", "title": "Decoding frees everything it does not hand out", "statement": "After l8w8jwt_decode returns, every block it allocated has been freed exactly once, except the claims array and strings it handed to the caller on success.", "quantifier": "every token, parameter set and allocator outcome", "why_tests_cant": "every failure point of every path", "anchors": ["src/decode.c:l8w8jwt_decode", "src/decode.c:l8w8jwt_parse_claims"]}
{"id": "C33", "title": "Encoding frees everything it does not hand out", "statement": "After l8w8jwt_encode returns, every block it allocated has been freed exactly once, except the token handed to the caller on success.", "quantifier": "every parameter set, allocator outcome and crypto backend", "why_tests_cant": "every failure point of every path", "anchors": ["src/encode.c:l8w8jwt_encode"]}
{"id": "C34", "title": "Encoding under memory pressure is all or nothing", "statement": "For every pattern of allocation failures l8w8jwt_encode either returns an error or the same token it would have returned without failures.", "quantifier": "every schedule of allocation failures", "why_tests_cant": "fault schedules are unbounded", "anchors": ["src/encode.c:write_header_and_payload", "src/claim.c:l8w8jwt_write_claims"]}
{"id": "C35", "title": "Claim lookup finds the claim with the given key", "statement": "l8w8jwt_get_claim returns the first claim whose key is exactly the requested key, and NULL if there is none.", "quantifier": "every claim array and key", "why_tests_cant": "all key pairs, in particular keys sharing a prefix", "anchors": ["src/claim.c:l8w8jwt_get_claim"]}
{"id": "C36", "title": "Case-insensitive comparison", "statement": "l8w8jwt_strncmpic returns 0 if and only if the two C strings agree, ignoring ASCII case, on their first n characters.", "quantifier": "every pair of C strings and every n", "why_tests_cant": "all string pairs", "anchors": ["src/util.c:l8w8jwt_strncmpic"]}
{"id": "C37", "title": "Hex conversion", "statement": "l8w8jwt_hexstr2bin turns any even-length string of hexadecimal digits (either case, optional trailing NUL) into the bytes it denotes plus a NUL terminator, never writes past output_size, and rejects strings that are not hexadecimal.", "quantifier": "every string, length and output size", "why_tests_cant": "all strings and sizes", "anchors": ["src/util.c:l8w8jwt_hexstr2bin"]}
{"id": "C38", "title": "Parameter validators and initialisers", "statement": "l8w8jwt_validate_encoding_params and l8w8jwt_validate_decoding_params return L8W8JWT_SUCCESS exactly for parameter sets meeting the documented requirements, and the documented code otherwise; encode and decode return that same code without touching anything else. The two initialisers produce parameters that ask for nothing and are refused until filled in.", "quantifier": "every parameter set", "why_tests_cant": "product of all field values", "anchors": ["src/encode.c:l8w8jwt_validate_encoding_params", "src/encode.c:l8w8jwt_encoding_params_init", "src/decode.c:l8w8jwt_validate_decoding_params", "src/decode.c:l8w8jwt_decoding_params_init"]}
{"id": "C39", "title": "Key buffers are never over-read", "statement": "For every key length up to L8W8JWT_MAX_KEY_SIZE (which the validators accept) encoding and decoding read only inside the internal key buffer.", "quantifier": "every key of length 1..8192", "why_tests_cant": "the boundary length together with the last key byte decides", "anchors": ["src/encode.c:write_signature", "src/decode.c:l8w8jwt_verify_signature"]}
{"id": "C40", "title": "A trailing NUL on an HMAC key is not part of the key", "statement": "For HS* algorithms a key given with and without one terminating NUL signs and verifies identically.", "quantifier": "every key not ending in NUL, every message", "why_tests_cant": "all keys", "anchors": ["src/encode.c:write_signature", "src/decode.c:l8w8jwt_verify_signature"]}
{"id": "C41", "title": "Small-stack builds survive allocation failure", "statement": "In L8W8JWT_SMALL_STACK builds a failed allocation of the key or signature buffer makes encode/decode return L8W8JWT_OUT_OF_MEM without undefined behaviour.", "quantifier": "every allocation schedule", "why_tests_cant": "fault schedules", "anchors": ["src/encode.c:write_signature", "src/decode.c:l8w8jwt_verify_signature"]}
{"id": "C42", "title": "Timestamps survive encode then decode", "statement": "An iat/nbf/exp value given to l8w8jwt_encode is written as a decimal integer that l8w8jwt_decode's validation reads back as the same value.", "quantifier": "every non-zero time_t value", "why_tests_cant": "64-bit domain", "anchors": ["src/encode.c:write_header_and_payload", "src/decode.c:l8w8jwt_validate_claims"]}
{"id": "C43", "title": "Tokens have exactly three segments", "statement": "l8w8jwt_decode (alg other than -1) rejects every text that does not consist of exactly three dot-separated segments.", "quantifier": "every token text", "why_tests_cant": "all texts", "anchors": ["src/decode.c:l8w8jwt_decode_segments"]}
{"id": "C44", "title": "ECDSA signatures are fixed-width r||s", "statement": "ES256/ES256K/ES384/ES512 tokens carry exactly 64/64/96/132 signature bytes, the big-endian r and s left-padded to half that width, and decoding splits any such signature back into the same r and s.", "quantifier": "every r, s below the width and every token", "why_tests_cant": "r and s with leading zero bytes are rare in random tests", "anchors": ["src/encode.c:write_signature", "src/decode.c:l8w8jwt_verify_signature"]}
{"id": "C45", "title": "Only JSON objects are accepted as header and payload", "statement": "If l8w8jwt_decode returns L8W8JWT_SUCCESS then header and payload are JSON texts whose top-level value is an object.", "quantifier": "every token text", "why_tests_cant": "all texts", "anchors": ["src/decode.c:l8w8jwt_parse_claims"]}
{"id": "C46", "title": "No leaks over any API history", "statement": "In any sequence of encode, decode, decode_raw and free calls by a client that frees what it is handed exactly once, no block is freed twice and at the end only blocks the client still owns are live.", "quantifier": "every finite sequence of API calls with any arguments and allocator outcomes", "why_tests_cant": "unbounded histories", "anchors": ["src/decode.c", "src/encode.c", "src/claim.c:l8w8jwt_free_claims", "src/version.c:l8w8jwt_free"]}
{"id": "C47", "title": "Releasing claims", "statement": "l8w8jwt_free_claims on an array handed out by l8w8jwt_decode frees the array and every key and value exactly once and wipes only bytes inside those blocks; on NULL it does nothing.", "quantifier": "every claim array produced by decoding", "why_tests_cant": "all arrays", "anchors": ["src/claim.c:l8w8jwt_free_claims"]}
{"id": "C48", "title": "Version functions", "statement": "l8w8jwt_get_version_string writes the NUL-terminated version string within 32 bytes and its digits, read as a decimal number, equal l8w8jwt_get_version_number.", "quantifier": "every initial buffer content", "why_tests_cant": "agreement of two independently maintained constants for any caller buffer", "anchors": ["src/version.c", "include/l8w8jwt/version.h"]}
{"id": "C49", "title": "Encoding is memory safe", "statement": "l8w8jwt_encode performs no out-of-bounds access, null dereference, double free or other undefined behaviour for any readable parameter set.", "quantifier": "every parameter set whose pointers are readable for the stated lengths, every allocator outcome and crypto backend", "why_tests_cant": "all parameter sets, allocation schedules and backends", "anchors": ["src/encode.c:l8w8jwt_encode", "src/encode.c:write_header_and_payload", "src/encode.c:write_signature", "src/claim.c:l8w8jwt_write_claims"]}
{"id": "C50", "title": "Valid tokens are accepted", "statement": "A token whose three parts are base64url texts, whose header and payload are JSON objects and whose signature verifies under the caller's key and algorithm is accepted by l8w8jwt_decode: it returns L8W8JWT_SUCCESS, the signature flag is clear, no flag is set if nothing else is to be validated, and the claims are the members of header and payload.", "quantifier": "every token text, key, algorithm and crypto backend", "why_tests_cant": "acceptance of all valid tokens, whoever issued them, is a liveness statement over unbounded inputs", "anchors": ["src/decode.c:l8w8jwt_decode", "src/decode.c:l8w8jwt_decode_segments", "src/decode.c:l8w8jwt_parse_claims", "src/decode.c:l8w8jwt_verify_signature"]}
{"id": "C51", "title": "Issued tokens pass exactly the matching checks", "statement": "A token made by l8w8jwt_encode and decoded with the matching key passes a requested sub, aud, iss or jti check exactly if the expected string is the issued one, an exp, nbf or iat check exactly if that time was issued and is not out of time, and a typ check exactly if JWT is expected; no other flag is set, so if everything asked for was issued so the result is L8W8JWT_VALID.", "quantifier": "every encoding parameter set, every decoding request, every clock, key and crypto backend", "why_tests_cant": "relates two unbounded parameter spaces, through JSON, base64 and the claim lookup", "anchors": ["src/encode.c:l8w8jwt_encode", "src/decode.c:l8w8jwt_decode", "src/decode.c:l8w8jwt_validate_claims", "src/claim.c:l8w8jwt_get_claim"]}
{"id": "C52", "title": "Claim parsing stays inside the token array", "statement": "Reading the claims of a header or payload (skipping nested values included) accesses only tokens that the tokenizer wrote; in particular it never reads past the token array, however large the text.", "quantifier": "all JSON object texts of any size and nesting, all tokens around them, all signatures (valid or not), all keys and algorithms, all heaps", "why_tests_cant": "The over-read needs a text of at least 64 values and names whose last member is an array or object; with exactly 63 the outcome depends on an uninitialised stack token. Tests with small tokens never get there, and a stack over-read by one token usually goes unnoticed.", "anchors": ["src/decode.c:l8w8jwt_parse_claims", "src/decode.c:l8w8jwt_decode", "src/decode.c:l8w8jwt_decode_raw"]}
{"id": "C53", "title": "A valid verdict means what it says", "statement": "l8w8jwt_decode reports L8W8JWT_VALID for a token if and only if its signature verifies under the caller's algorithm and key and the payload's claims (for typ: the header's type) are exactly what the caller asked for.", "quantifier": "every token of JSON objects, every request for validation, every clock, key, algorithm and crypto backend", "why_tests_cant": "both directions range over all tokens, including hostile ones whose header and payload carry members of the same name, and all requests", "anchors": ["src/decode.c:l8w8jwt_decode", "src/decode.c:l8w8jwt_validate_claims", "src/decode.c:l8w8jwt_verify_signature", "src/claim.c:l8w8jwt_get_claim"]}
{"id": "C54", "title": "Results do not depend on history", "statement": "The public functions keep no hidden state: two calls with the same arguments, in processes whose heaps have different pasts (other blocks allocated and freed, other buffers grown, other bytes left in freed memory), return the same codes, lengths, texts, claims and verdicts, are undefined in the same cases, allocate equally often and leave the same of their blocks in use, provided the allocator grants the same of the requests they make.", "quantifier": "all builds, crypto backends, argument values (valid or not), pairs of heaps and allocation outcomes", "why_tests_cant": "a relation between two executions from unbounded, unrelated heap states; a read of uninitialised memory shows up only with unlucky contents", "anchors": ["src/encode.c:l8w8jwt_encode", "src/encode.c:write_signature", "src/decode.c:l8w8jwt_decode", "src/decode.c:l8w8jwt_decode_raw", "src/decode.c:l8w8jwt_decode_raw_no_validation", "src/base64.c:l8w8jwt_base64_encode", "src/base64.c:l8w8jwt_base64_decode", "src/decode.c:l8w8jwt_unescape_claim"]}
{"id": "C55", "title": "Decoding does not depend on uninitialised tokens", "statement": "What l8w8jwt_decode and l8w8jwt_decode_raw do does not depend on what the never-written elements of the JSON token array contain.", "quantifier": "all tokens, requests, keys, backends, heaps and all contents of the array", "why_tests_cant": "the array is a local variable without initialiser: tests see one content of the stack, the property ranges over all", "anchors": ["src/decode.c:l8w8jwt_parse_claims", "src/decode.c:l8w8jwt_decode", "src/decode.c:l8w8jwt_decode_raw"]}
{"id": "C56", "title": "No memory corruption and no hang", "statement": "Whatever the arguments (also lengths that do not match the buffers, missing terminators, hostile tokens, unsuitable keys) and whatever the allocator does, every public function ends, and the only undefined behaviour it can run into is a read outside an object, an access through NULL, a signed overflow of a counter, or a bad index or argument to a table lookup; it never writes outside an object, never frees twice or what it does not own, and never uses an uninitialised variable.", "quantifier": "all argument values, buffer contents and sizes, tokens, keys, crypto backends, heaps and allocation outcomes", "why_tests_cant": "ranges over all calls, including those that violate the documented preconditions, where tests show only particular crashes", "anchors": ["src/encode.c:l8w8jwt_encode", "src/decode.c:l8w8jwt_decode", "src/decode.c:l8w8jwt_decode_raw", "src/decode.c:l8w8jwt_decode_raw_no_validation", "src/base64.c:l8w8jwt_base64_encode", "src/base64.c:l8w8jwt_base64_decode", "src/claim.c:l8w8jwt_write_claims", "src/claim.c:l8w8jwt_get_claim", "src/util.c:l8w8jwt_hexstr2bin"]}
{"id": "C57", "title": "Time moves verdicts in one direction", "statement": "Checking one token at two times, or with two sets of tolerances, gives the same return code, claims and allocations, and verdicts that differ in the exp, nbf and iat bits only: an expired token stays expired as time goes by or the tolerance shrinks, a token that is not too early stays so as time goes by or the tolerance grows, and a token accepted at two times is accepted at every time in between.", "quantifier": "all tokens, requests, keys, backends, builds, heaps and pairs (triples) of times and tolerances", "why_tests_cant": "a relation between executions at different times; tests fix the clock at a few values", "anchors": ["src/decode.c:l8w8jwt_validate_claims", "src/decode.c:l8w8jwt_decode", "src/decode.c:l8w8jwt_decode_raw"]}
{"id": "C58", "title": "The token ends where its length says", "statement": "The decoding functions look at the first jwt_length characters of the token buffer only: what is stored behind them, terminator or not, makes no difference.", "quantifier": "all tokens, lengths, contents of the memory behind the token, requests, keys, backends, builds and heaps", "why_tests_cant": "a relation between two executions over unbounded buffers; tests pass properly terminated strings", "anchors": ["src/decode.c:l8w8jwt_decode_segments", "src/decode.c:l8w8jwt_verify_signature", "src/decode.c:l8w8jwt_decode", "src/decode.c:l8w8jwt_decode_raw", "src/decode.c:l8w8jwt_decode_raw_no_validation"]}
{"id": "C59", "title": "A token has one spelling", "statement": "No two different token texts with the same header and payload are both accepted for the same signature: changing a character of an accepted token makes it rejected.", "quantifier": "all accepted tokens, algorithms, keys, backends, and all other texts", "why_tests_cant": "quantifies over all pairs of texts; tests alter a few characters of one token", "anchors": ["src/base64.c:l8w8jwt_base64_decode", "src/decode.c:l8w8jwt_decode_segments", "src/decode.c:l8w8jwt_decode"]}
{"id": "C60", "title": "Dates are compared by their numeric value", "statement": "An exp, nbf or iat claim that is a JSON number, with fraction and exponent (RFC 7519 NumericDate), is compared with the time by its numeric value.", "quantifier": "all accepted tokens, all JSON numbers, times and tolerances", "why_tests_cant": "the set of number texts is infinite; tests use plain integers", "anchors": ["src/decode.c:l8w8jwt_validate_claims", "src/decode.c:l8w8jwt_parse_claims"]}
{"id": "C61", "title": "Equal tokens carry equal claims", "statement": "Two successful l8w8jwt_encode calls that return the same text were asked for the same: the same algorithm, the same additional header claims in the same order, the same registered claims and the same additional payload claims in the same order.", "quantifier": "all pairs of requests, on any platforms, with any keys, backends and heaps", "why_tests_cant": "injectivity is a relation between all pairs of calls and rests on the JSON grammar being unambiguous; tests compare a few tokens", "anchors": ["src/encode.c:l8w8jwt_encode", "src/encode.c:write_header_and_payload", "src/claim.c:l8w8jwt_write_claims"]}
{"id": "C62", "title": "Decoding refuses keys that do not fit the algorithm", "statement": "A token is reported as signed only if the caller's verification key is one that RFC 7518 / RFC 8037 allow for the algorithm: an HMAC key as long as the digest, an RSA key of at least 2048 bits, an EC key on the algorithm's curve, an Ed25519 key of 32 bytes.", "quantifier": "all tokens, algorithms, keys, backends, requests, builds and heaps", "why_tests_cant": "ranges over all keys and backends; the missing checks show only with keys nobody puts into a test suite", "anchors": ["src/decode.c:l8w8jwt_verify_signature", "src/decode.c:l8w8jwt_decode", "src/decode.c:l8w8jwt_decode_raw"]}
{"id": "C63", "title": "Crypto contexts are used by the rules", "statement": "Every call of l8w8jwt_encode, l8w8jwt_decode and l8w8jwt_decode_raw that returns initialised each mbedtls context before anything else was done with it, did not fill one that already owned something, used none before it was filled or after it was freed, drew random numbers only from a seeded generator, freed nothing twice (the key inside a certificate belongs to the certificate) and left no context that owns memory.", "quantifier": "all calls: arguments, algorithms, keys and certificates, backends (hence every failure of every mbedtls call), builds and allocation outcomes", "why_tests_cant": "the error paths multiply: each mbedtls call can fail at each step of each algorithm; tests reach few of them and cannot see a context that is not freed", "anchors": ["src/encode.c:write_signature", "src/decode.c:l8w8jwt_verify_signature", "src/encode.c:l8w8jwt_encode", "src/decode.c:l8w8jwt_decode", "src/decode.c:l8w8jwt_decode_raw"]}
{"id": "C64", "title": "Copies of keys are wiped", "statement": "When a call of l8w8jwt_encode, l8w8jwt_decode or l8w8jwt_decode_raw returns, every buffer of its own into which it copied key material (the key buffer and the decoded Ed25519 private key) has been wiped since.", "quantifier": "all calls: arguments, algorithms, keys, backends, builds and allocation outcomes", "why_tests_cant": "stale memory is invisible to tests, and every exit path has to be covered", "anchors": ["src/encode.c:write_signature", "src/decode.c:l8w8jwt_verify_signature"]}
{"id": "C65", "title": "Decoding takes memory in proportion to the token", "statement": "Whatever the text it is given, l8w8jwt_decode hands out claims that together take at most about twice the text's memory, and at most half as many claims as the text has bytes; the raw functions hand out segments of at most 3/4 of it plus 48 bytes; each call makes at most one allocation per byte of text, plus nine; the array of JSON tokens has at most one element per byte. Nested values are not copied once per level.", "quantifier": "all texts (tokens or not), keys, requests, builds, backends and allocation outcomes", "why_tests_cant": "a bound for all inputs; amplification shows only for texts made for it", "anchors": ["src/decode.c:l8w8jwt_decode", "src/decode.c:l8w8jwt_decode_raw", "src/decode.c:l8w8jwt_decode_raw_no_validation", "src/decode.c:l8w8jwt_parse_claims", "src/decode.c:l8w8jwt_unescape_claim", "src/base64.c:l8w8jwt_base64_decode"]}
{"id": "C66", "title": "The key generator's extra entropy never weakens the seed", "statement": "examples/eddsa/keygen.c mixes the digest of its arguments into the random seed. Mixing keeps the seed's length, does nothing without arguments, and maps different seeds to different seeds: adding entropy must not lose that of the random generator.", "quantifier": "all seeds, all command lines, all digest functions", "why_tests_cant": "the loss depends on the digest bytes; every run prints a key pair that looks fine", "anchors": ["examples/eddsa/keygen.c:main"]}
{"id": "C67", "title": "The example programs are free of undefined behaviour and give back their memory", "statement": "The programs in examples/*/encode.c and examples/*/decode.c run to their end without undefined behaviour, whatever the keys and tokens in them, and when they end nothing they or the library allocated is still allocated. An encoder prints the whole token that l8w8jwt_encode returned.", "quantifier": "all keys, tokens, times, builds, backends and allocation outcomes; all fourteen algorithms", "why_tests_cant": "the programs are run by hand with one key and token each; error returns of the library, which they do not check, never occur in such runs, and leaks are invisible", "anchors": ["examples/hs256/encode.c:main", "examples/hs256/decode.c:main", "examples/rs256/decode.c:main", "examples/eddsa/decode.c:main", "examples/hs384/decode.c:main"]}
{"id": "C68", "title": "The example decoders accept the tokens of the example encoders, in time and signed", "statement": "Each example decoder finds a token of the corresponding example encoder valid exactly from a minute before its issue to a minute after its ten minutes, if its key matches the encoder's, flags exactly the times outside, and accepts no token whose signature does not verify with its key.", "quantifier": "all keys, times of issue and of decoding, builds, backends and tokens; all fourteen algorithms", "why_tests_cant": "the decoders contain fixed tokens that expired long ago; no test runs encoder and decoder together or changes the clock", "anchors": ["examples/hs256/encode.c:main", "examples/hs256/decode.c:main", "examples/rs512/encode.c:main", "examples/rs512/decode.c:main", "examples/eddsa/decode.c:main"]}
{"id": "C69", "title": "Each return code of decoding means what it says", "statement": "l8w8jwt_decode, l8w8jwt_decode_raw and l8w8jwt_decode_raw_no_validation return each code only for its cause: NULL_ARG for a NULL pointer, INVALID_ARG for a length of zero or an oversized key, UNSUPPORTED_ALG for EdDSA in a build without it, OUT_OF_MEM if and only if an allocation failed, BASE64_FAILURE if a segment is not base64url, KEY_PARSE_FAILURE, WRONG_KEY_TYPE and SHA2_FAILURE for such a failure of the backend, DECODE_FAILED_MISSING_SIGNATURE for a text of two segments, DECODE_FAILED_INVALID_TOKEN_FORMAT if there is no dot or a segment is not a JSON object.", "quantifier": "all texts, keys, algorithms, requests, backends, builds and allocation outcomes", "why_tests_cant": "the code depends on which of many failures comes first; tests look at single failures and cannot make allocations fail", "anchors": ["src/decode.c:l8w8jwt_decode", "src/decode.c:l8w8jwt_decode_raw", "src/decode.c:l8w8jwt_decode_raw_no_validation", "src/decode.c:l8w8jwt_decode_segments", "src/decode.c:l8w8jwt_verify_signature", "src/decode.c:l8w8jwt_parse_claims", "include/l8w8jwt/retcodes.h"]}
{"id": "C70", "title": "Each return code of encoding means what it says", "statement": "l8w8jwt_encode returns each code only for its cause: NULL_ARG for a NULL pointer, INVALID_ARG for a key length of zero or above the limit, a claims array without elements or an unknown algorithm, OUT_OF_MEM if and only if an allocation failed, OVERFLOW if the base64 text of header or payload has no representable size, the key, digest, random generator and signature codes for such a failure of the backend or a key that does not fit the algorithm, UNSUPPORTED_ALG for EdDSA in a build without it; success only if memory sufficed.", "quantifier": "all requests, keys, algorithms, backends, builds and allocation outcomes", "why_tests_cant": "the code depends on which of many failures comes first; tests look at single failures and cannot make allocations fail", "anchors": ["src/encode.c:l8w8jwt_encode", "src/encode.c:write_header_and_payload", "src/encode.c:write_signature", "src/encode.c:write_token", "src/claim.c:l8w8jwt_write_claims", "include/l8w8jwt/retcodes.h"]}
{"id": "C71", "title": "Decoded claims can be encoded again", "statement": "The claims l8w8jwt_decode hands out can be given to l8w8jwt_encode as additional claims, from any number of tokens and in any order: the new token's JSON members mean the same as the old ones, and decoding it gives claims with the same keys, values and types.", "quantifier": "all tokens with JSON header and payload, all selections of their claims, all algorithms, keys and backends", "why_tests_cant": "the two directions use different escape rules; only some characters in names and values show it, and no test feeds decoded claims back", "anchors": ["src/decode.c:l8w8jwt_decode", "src/decode.c:l8w8jwt_unescape_claim", "src/encode.c:l8w8jwt_encode", "src/claim.c:l8w8jwt_write_claims", "src/claim.c:l8w8jwt_escape_claim_string"]}
{"id": "C72", "title": "Encoding takes memory in proportion to the request", "statement": "l8w8jwt_encode makes at most eleven allocations (not counting the growth of its string builders), and the token it hands out, with its block, is at most eight times as long as the names and values of the claims it was given, plus a constant: escaping, base64 and the signature cannot blow up a small request.", "quantifier": "all requests, keys, backends, builds, allocation and growth outcomes", "why_tests_cant": "a bound over all requests; tests see the length of a few tokens", "anchors": ["src/encode.c:l8w8jwt_encode", "src/encode.c:write_header_and_payload", "src/encode.c:write_signature", "src/encode.c:write_token", "src/claim.c:l8w8jwt_write_claims", "src/claim.c:l8w8jwt_escape_claim_string"]}
{"id": "C73", "title": "Only the memory a call asks for can influence it", "statement": "What base64 encoding and decoding, escaping, writing and freeing claims, l8w8jwt_encode, l8w8jwt_decode, l8w8jwt_decode_raw and l8w8jwt_decode_raw_no_validation do depends on the heap only through the outcomes of the allocations and appends they make. With eleven allocations that succeed l8w8jwt_encode, with as many as the text has bytes and nine more decoding, and with three decoding without validation, do exactly what they do with unlimited memory.", "quantifier": "all arguments, heaps, allocation and growth outcomes, backends and builds", "why_tests_cant": "tests run with plenty of memory only; that this tells how the code behaves with just enough is a statement about all runs", "anchors": ["src/encode.c:l8w8jwt_encode", "src/decode.c:l8w8jwt_decode", "src/decode.c:l8w8jwt_decode_raw", "src/decode.c:l8w8jwt_decode_raw_no_validation", "src/base64.c:l8w8jwt_base64_encode", "src/base64.c:l8w8jwt_base64_decode", "src/claim.c:l8w8jwt_write_claims", "src/claim.c:l8w8jwt_free_claims"]}
{"id": "C74", "title": "Exactly which tokens make decoding undefined", "statement": "With memory at hand, a key and expectations that can be read, and a NUL-terminated token text of at most INT_MAX bytes, l8w8jwt_decode and l8w8jwt_decode_raw are undefined exactly if: all parts decode, the key is accepted, and the signature is shorter than what the algorithm reads or the key lacks the part it needs; or the verdict is reached and reading the claims of header or payload goes past the token array (64 or more tokens ending in a name without value or in a container, or 63 ending in a container, depending on the stack contents); or the typ is compared and a byte outside what tolower takes is met before the texts differ. Every other token, JSON or not, is handled.", "quantifier": "all tokens (any bytes), parameters, keys, algorithms, backends and builds", "why_tests_cant": "an exact boundary over all byte strings; tests and fuzzing find points on one side of it", "anchors": ["src/decode.c:l8w8jwt_decode", "src/decode.c:l8w8jwt_decode_raw", "src/decode.c:l8w8jwt_parse_claims", "src/decode.c:l8w8jwt_verify_signature", "src/decode.c:l8w8jwt_validate_claims", "src/util.c:l8w8jwt_strncmpic"]}
{"id": "C75", "title": "What decoding does, for every token", "statement": "With memory at hand, a key and expectations that can be read, and a NUL-terminated token text of at most INT_MAX bytes, what l8w8jwt_decode does is given by a relation between call and outcome that is written without the code, and is a function: an error code (and which, and whether NOT_VALID is stored), or a validation result together with the list of claims handed out, or undefined behaviour. l8w8jwt_decode_raw has the same code and result and hands out the decoded parts; l8w8jwt_decode_raw_no_validation cuts the token the same way and nothing else. In particular a token is reported valid exactly if it has three base64url parts, the key can be used and the signature verifies over header and payload, header and payload can be read, and no requested check fails.", "quantifier": "all tokens (any bytes), parameters, keys, algorithms, backends, builds and times", "why_tests_cant": "a complete specification in both directions; tests compare with expected results on chosen tokens", "anchors": ["src/decode.c:l8w8jwt_decode", "src/decode.c:l8w8jwt_decode_raw", "src/decode.c:l8w8jwt_decode_raw_no_validation", "src/decode.c:l8w8jwt_parse_claims", "src/decode.c:l8w8jwt_verify_signature", "src/decode.c:l8w8jwt_validate_claims", "src/decode.c:l8w8jwt_decode_segments"]}
{"id": "C76", "title": "What encoding does, for every request", "statement": "With memory at hand and with parameters that can be read, what l8w8jwt_encode does is given by a relation between request and outcome that is written without the code, and is a function: the token (header members in order, registered claims in order, additional claims with the separator as coded, base64url of both, signature by the algorithm) and its length, or an error code and which, or undefined behaviour and why (a byte with the sign bit in a string that is escaped where char is signed, a text whose base64 length passes INT_MAX, a key of the maximal length without NUL, a key lacking the part its kind promises, an RSA modulus beyond the signature buffer). So a token is issued, and the call is undefined, exactly if the relation says so; the signatures are those of the standard's algorithms.", "quantifier": "all parameters (any claims, times, strings, keys, algorithms), backends and builds", "why_tests_cant": "a complete specification in both directions; tests compare with expected results on chosen requests", "anchors": ["src/encode.c:l8w8jwt_encode", "src/encode.c:write_header_and_payload", "src/encode.c:write_signature", "src/encode.c:write_token", "src/encode.c:l8w8jwt_validate_encoding_params", "src/claim.c:l8w8jwt_write_claims", "src/claim.c:l8w8jwt_escape_claim_string", "src/base64.c:l8w8jwt_base64_encode"]}
{"id": "C77", "title": "An accepted token says what its issuer put into it, or it is forged", "statement": "If l8w8jwt_decode succeeds on any text and does not flag the signature, then, for any log of tokens issued with l8w8jwt_encode, either the text holds a signature that verifies for a text no token of the log was signed for (a forgery), or some token of the log has the same signed part; then the claims handed out are those its request asked for, and the flags for issuer, subject, audience, id, times and type are those of comparing the expectations with that request. In particular a token found valid for a subject was issued for that subject and is in time, or is forged.", "quantifier": "all texts an attacker may hand in, logs of issued tokens, requests, algorithms, keys, backends, clocks", "why_tests_cant": "the adversary's text is arbitrary; tests try tokens that were issued and a few that were tampered with", "anchors": ["src/decode.c:l8w8jwt_decode", "src/decode.c:l8w8jwt_verify_signature", "src/decode.c:l8w8jwt_validate_claims", "src/encode.c:l8w8jwt_encode"]}
{"id": "C78", "title": "Decoding when memory is short", "statement": "Whichever of its allocations and appends are refused, l8w8jwt_decode (and l8w8jwt_decode_raw) comes to what it comes to with all the memory it wants, or, only if something was refused, to one of: OUT_OF_MEM; INVALID_TOKEN_FORMAT once the signature check is passed; success with some of the claims missing, the flags being those of the claims that are left; in builds with the key on the heap, undefined behaviour; in builds whose list does not clear itself, undefined behaviour. Error codes come with NOT_VALID and without claims. If no two claims have names starting with the same requested name, a check that fails with enough memory fails when memory is short, and a token found valid when memory is short is found valid with enough memory; without this proviso a token can become valid because memory was short.", "quantifier": "all patterns of refused allocations and appends, tokens, parameters, keys, algorithms, backends and builds", "why_tests_cant": "2^n patterns of failure for n requests, times all tokens; tests do not make allocations fail", "anchors": ["src/decode.c:l8w8jwt_decode", "src/decode.c:l8w8jwt_decode_raw", "src/decode.c:l8w8jwt_parse_claims", "src/decode.c:l8w8jwt_decode_segments", "src/decode.c:l8w8jwt_verify_signature", "src/decode.c:l8w8jwt_unescape_claim"]}
{"id": "C79", "title": "Encoding when memory is short", "statement": "Whichever of its allocations and appends are refused, l8w8jwt_encode does what a relation says that is written without the code and is the one of C76 when nothing is refused: where an append may have been refused the piece may be missing; where an allocation may have been refused a group of claims (header, registered, additional) may be missing altogether, or the result is OUT_OF_MEM (BASE64_FAILURE for the signature's), or in builds with the key on the heap undefined behaviour; and nothing else. The signature of a token that is returned covers exactly the bytes before it, with the caller's key and algorithm, however short memory was. If only allocations were refused, each group of claims is complete or missing. Refused appends can turn the claims asked for into others.", "quantifier": "all patterns of refused allocations and appends, requests, keys, algorithms, backends and builds", "why_tests_cant": "2^n patterns of failure for n requests, times all requests; tests do not make allocations fail", "anchors": ["src/encode.c:l8w8jwt_encode", "src/encode.c:write_header_and_payload", "src/encode.c:write_signature", "src/encode.c:write_token", "src/claim.c:l8w8jwt_write_claims", "src/claim.c:l8w8jwt_escape_claim_string", "src/base64.c:l8w8jwt_base64_encode"]}
{"id": "C80", "title": "Output parameters are written as documented", "statement": "The header files say what is stored through the output pointers and when. l8w8jwt_decode and l8w8jwt_decode_raw: if the arguments are refused, nothing; if decoding fails afterwards, ~0 as validation result; if it succeeds, the flags. The claims and their number, and the raw parts, are written only if decoding succeeds; the number is 0 if the claims are not asked for. l8w8jwt_encode and the base64 functions store the length only on success, together with a buffer that is the caller's to free, and otherwise leave *out alone or set it to NULL.", "quantifier": "all arguments (NULL or not), tokens, requests, backends, builds and memory states", "why_tests_cant": "the documented contract holds for every combination of output pointers and every way to fail; tests pass all of them and look at success", "anchors": ["src/decode.c:l8w8jwt_decode", "src/decode.c:l8w8jwt_decode_raw", "src/decode.c:l8w8jwt_decode_raw_no_validation", "include/l8w8jwt/decode.h:l8w8jwt_decode", "include/l8w8jwt/decode.h:l8w8jwt_decode_raw", "src/encode.c:write_token", "src/base64.c:l8w8jwt_base64_encode", "src/base64.c:l8w8jwt_base64_decode"]}
{"id": "C81", "title": "Memory is given back to the allocator it came from", "statement": "The application may replace the library's malloc and calloc by functions of its own (README, Custom allocators). Every block the library releases was obtained before, from one source, and is released with the function that belongs to that source: libc's free never receives a block of the application's allocator, and chillbuff_free receives only chillbuff's own blocks. This also holds of what the documentation leaves to the caller: l8w8jwt_free on the token and the raw parts, l8w8jwt_free_claims on the claims.", "quantifier": "all builds (which of malloc and calloc are replaced, small stack or not), requests, tokens, backends and patterns of refused memory, all runs up to their end", "why_tests_cant": "over all runs and builds; tests run the default build, where both functions are libc's and nothing can be mixed up", "anchors": ["include/l8w8jwt/util.h:L8W8JWT_PLATFORM_MALLOC_ALT", "include/l8w8jwt/util.h:L8W8JWT_PLATFORM_CALLOC_ALT", "src/version.c:l8w8jwt_free", "src/encode.c:write_header_and_payload", "src/encode.c:write_signature", "src/encode.c:write_token", "src/decode.c:l8w8jwt_unescape_claim", "src/decode.c:l8w8jwt_parse_claims", "src/decode.c:l8w8jwt_decode", "src/claim.c:l8w8jwt_free_claims", "src/base64.c:l8w8jwt_base64_encode", "src/base64.c:l8w8jwt_base64_decode"]}
{"id": "C82", "title": "Claims and keys are wiped before their memory is released", "statement": "l8w8jwt_free_claims overwrites names, values and the array before it frees them; so nothing of the claims can be read in released memory afterwards. Every block that decoding and the release of its claims give back holds nothing any more: the claims' blocks, whether released by the caller, because decoding fails, or because they are not asked for; copies of the key; the decoded parts of the token.", "quantifier": "all tokens, parameters, builds, backends and patterns of refused memory, all runs up to their end", "why_tests_cant": "what released memory holds cannot be looked at by a test without undefined behaviour", "anchors": ["src/claim.c:l8w8jwt_free_claims", "src/decode.c:l8w8jwt_decode", "src/decode.c:l8w8jwt_decode_raw", "src/decode.c:l8w8jwt_decode_raw_no_validation", "src/decode.c:l8w8jwt_unescape_claim", "src/decode.c:l8w8jwt_verify_signature", "src/encode.c:write_signature"]}
{"id": "C83", "title": "Memory is used only while it is held", "statement": "No function reads, writes or releases a heap block that is not held at that moment: none after its release, none before it was obtained. No block is obtained twice while held. What a call hands out (token, claims array, names and values, raw parts) is new, all distinct and still held when the call returns, and the caller's own blocks stay held. l8w8jwt_free_claims gives up exactly the blocks of the claims it is told to release. Whole uses (encode and release; decode and release, in its three forms) have the same property.", "quantifier": "all parameters (whose heap blocks, if any, are held), tokens, builds, backends, heaps and patterns of refused memory; all runs, including up to the point where undefined behaviour of another kind sets in", "why_tests_cant": "a use after release goes unnoticed in a test unless the block was reused in between; paths where memory is refused are not run at all", "anchors": ["src/encode.c:write_header_and_payload", "src/encode.c:write_signature", "src/encode.c:l8w8jwt_encode", "src/decode.c:l8w8jwt_decode", "src/decode.c:l8w8jwt_decode_raw", "src/decode.c:l8w8jwt_decode_raw_no_validation", "src/decode.c:l8w8jwt_parse_claims", "src/decode.c:l8w8jwt_unescape_claim", "src/claim.c:l8w8jwt_free_claims", "src/base64.c:l8w8jwt_base64_decode"]}
{"id": "C84", "title": "Keys influence signatures only", "statement": "Two successful decodings of the same text hand out the same claims (or raw parts) whatever the algorithm, the key, the requested checks, the crypto backend, the clock and the heap are. Every validation flag but the signature flag is the same if both callers asked the same for it (for exp, nbf and iat: at the same time), whatever key was used. The signature flag is the same for the same token, algorithm, key and backend, whatever else was requested and whatever the time is. Two tokens made from the same request under different keys or passwords are the same text up to the last dot; what follows is the signature of that text.", "quantifier": "all pairs of calls of l8w8jwt_decode, of l8w8jwt_decode_raw, and of l8w8jwt_encode, which succeed without being refused memory, over all texts, parameters, builds, backends with the same JSON tokenizer, clocks and heaps", "why_tests_cant": "it relates two runs; a test would have to try all pairs of keys, requests and heaps", "anchors": ["src/decode.c:l8w8jwt_decode", "src/decode.c:l8w8jwt_decode_raw", "src/decode.c:l8w8jwt_verify_signature", "src/decode.c:l8w8jwt_parse_claims", "src/decode.c:l8w8jwt_validate_claims", "src/encode.c:l8w8jwt_encode", "src/encode.c:write_header_and_payload", "src/encode.c:write_signature"]}
{"id": "C85", "title": "Times do not help to forge", "statement": "Verifying a wrong signature of the right length takes the same time whichever it is, so whoever presents tokens and watches the clock learns no more from it than from the answers. In particular nobody without the key gets an HS256, HS384 or HS512 signature for a header and payload of their choice in fewer questions than trying out needs.", "quantifier": "all strategies of asking, in which each question may depend on all answers and times before, all keys, texts, HMAC functions, builds and heaps", "why_tests_cant": "a strategy is a tree of unbounded depth, the key is unknown to it; a test measures one machine's memcmp on a few signatures", "anchors": ["src/decode.c:l8w8jwt_verify_signature", "src/decode.c:l8w8jwt_decode"]}
{"id": "C86", "title": "The library reads the tokens it issues, JSON or not", "statement": "Some tokens encode issues have a header or payload that is not JSON: a comma is missing after registered strings given with length 0, or one too many is written (C11). The library's own decoder accepts them all the same, with the matching key and without reporting a signature failure (nor anything else if nothing else is to be checked), and gives back every claim asked for with its name, value and type, in order.", "quantifier": "all encode requests whose literal values are JSON, whatever their commas, and all matching keys, builds and decoding requests, for claims within the decoder's token limit", "why_tests_cant": "the texts concerned are outside the grammar any JSON test generator draws from; that the tolerance of the tokenizer covers exactly what the encoder gets wrong is a claim about both", "anchors": ["src/claim.c:l8w8jwt_write_claims", "src/encode.c:write_header_and_payload", "src/decode.c:l8w8jwt_parse_claims", "src/decode.c:l8w8jwt_decode"]}
{"id": "C87", "title": "What the project's own tests come to", "statement": "Each test of tests.c that issues a token and decodes it passes if the decoding comes less than half a minute after the issuing, and in general exactly within the window of delays its tolerances imply; it leaves the heap as it was exactly if it does not ask for the claims. The test that decodes an HS256 token as HS384 reads past the end of the decoded signature. The tests that sign with a key of another curve pass, as do those on bad arguments, on Base64, on parameter defaults, on reading and writing claims and on a token with escaped slashes.", "quantifier": "the 56 tests of that kind, all backends and keyrings in which the keys belong together as the tests mean them, all clock readings, delays, heaps and builds", "why_tests_cant": "a test cannot say under which delays, machines and backends it would pass, nor that it runs into undefined behaviour without a sanitizer", "anchors": ["tests/tests.c:test_l8w8jwt_decode_valid_signature_hs256", "tests/tests.c:test_l8w8jwt_decode_invalid_signature_hs256", "tests/tests.c:test_l8w8jwt_decode_valid_nbf_tolerance", "tests/tests.c:test_l8w8jwt_decode_invalid_signature_because_wrong_alg_type", "src/encode.c:l8w8jwt_encode", "src/decode.c:l8w8jwt_decode"]}
{"id": "C88", "title": "HMAC tokens carry RFC 7518's HMAC of the caller's key", "statement": "With an HMAC that follows RFC 2104, the third part of an HS256, HS384 or HS512 token is the HMAC of the first two under the caller's key bytes, and a signature is accepted exactly if it is; although one NUL at the end of the key is cut off. Two keys that RFC 2104 fills up to the same block (equal but for zeros at the end, or a long key and its hash) get the same answer for every token.", "quantifier": "all parameters, tokens, keys, hash functions with SHA-2's digest lengths, platforms, heaps", "why_tests_cant": "a test compares a few keys with a few published tokens; it cannot show that no key makes a difference, nor find the one in 256 long keys for which it does", "anchors": ["src/encode.c:write_signature", "src/encode.c:l8w8jwt_encode", "src/decode.c:l8w8jwt_verify_signature", "src/decode.c:l8w8jwt_decode"]}
{"id": "C89", "title": "Critical header parameters and everything else nobody asked for", "statement": "A token whose header lists extensions in crit that the library does not understand is not accepted (RFC 7515, 4.1.11). What holds instead: header parameters and claims whose names do not start with a name the caller asks about have no influence on the verdict, whatever they are, nor has the kind of the values.", "quantifier": "all pairs of presented tokens that agree in the members asked about and in whether their signatures verify, all parameters, keys, backends, builds and heaps", "why_tests_cant": "it relates two runs over all pairs of tokens; a test adds one extra member to one token", "anchors": ["src/decode.c:l8w8jwt_decode", "src/decode.c:l8w8jwt_validate_claims", "src/decode.c:l8w8jwt_parse_claims", "src/claim.c:l8w8jwt_get_claim"]}
{"id": "C90", "title": "Audiences that are lists", "statement": "A token whose audience is a list is meant for each member of the list, so a caller who expects one of them is not told that the audience fails (RFC 7519, 4.1.3). What holds instead: if the first aud member is an array, the flag is clear exactly if the caller's text is the array as written, brackets, quotes and white space included; no text that does not start with a bracket will do.", "quantifier": "all presented tokens in which the first member whose name starts with aud is an array named aud, all expected audiences, parameters, backends, builds and heaps", "why_tests_cant": "no test of the project uses a list; that no expected text but one passes is about all texts", "anchors": ["src/decode.c:l8w8jwt_decode", "src/decode.c:l8w8jwt_validate_claims", "src/decode.c:l8w8jwt_parse_claims", "src/claim.c:l8w8jwt_get_claim"]}
{"id": "C91", "title": "Claims that occur twice", "statement": "A token with a duplicate claim name is rejected, or its last occurrence counts (RFC 7519, section 4). What holds instead: it is accepted, and the first occurrence alone decides the flag, in the header before the payload.", "quantifier": "all presented tokens in which a member named as one of the identity claims occurs again anywhere later, all parameters, backends, builds and heaps", "why_tests_cant": "the number and position of the duplicates, and what surrounds them, are unbounded", "anchors": ["src/decode.c:l8w8jwt_decode", "src/decode.c:l8w8jwt_validate_claims", "src/decode.c:l8w8jwt_parse_claims", "src/claim.c:l8w8jwt_get_claim"]}
{"id": "C92", "title": "Dates and names that are of another kind", "statement": "sub is a string and exp, nbf and iat are numbers (RFC 7519, 4.1); a token in which they are something else does not pass the check. What holds instead: the kind is not looked at. A date is read off the value's text by strtoll, quotes removed from strings, so a string counts as the number it begins with, and null, true, false, arrays and objects count as 0.", "quantifier": "all presented tokens, dates requested, values of any kind, tolerances, clocks, backends, builds and heaps", "why_tests_cant": "the values concerned are all JSON values; the project's tests use numbers", "anchors": ["src/decode.c:l8w8jwt_decode", "src/decode.c:l8w8jwt_validate_claims", "src/decode.c:l8w8jwt_parse_claims", "src/claim.c:l8w8jwt_get_claim"]}
{"id": "C93", "title": "How long reading a header or payload takes", "statement": "The number of steps the tokenizer takes on the header or payload of a token is at most proportional to its length, so that the cost of a token (which is read whether or not its signature verifies) is bounded by its size. What holds instead: it is at most quadratic, and every JSON object with m members takes at least m(m-1) steps, as at each comma the tokenizer goes back over all tokens to find the object it is in.", "quantifier": "all byte strings for the upper bounds, all JSON objects with any members for the lower one", "why_tests_cant": "asymptotic: a test measures a few texts, and those of the project have ten members", "anchors": ["src/decode.c:l8w8jwt_parse_claims", "src/decode.c:JSMN_STATIC"]}
{"id": "C94", "title": "The character encoding of tokens", "statement": "The header and the payload of an issued token are UTF-8 (RFC 8259, 8.1), and a token whose header or payload is not UTF-8 is not accepted (RFC 7519, 7.2). What holds instead: neither is checked. The header of an issued token is UTF-8 exactly if all names and values passed for it are, likewise the payload; and reading a token whose header and payload are UTF-8 hands out names and values that are UTF-8.", "quantifier": "all parameters, platforms, keys, algorithms, backends and heaps; all accepted tokens; all byte strings as names and values", "why_tests_cant": "a text has unboundedly many characters, each of 1 to 4 bytes, and writing escapes some while reading resolves escapes; the project's tests pass ASCII", "anchors": ["src/encode.c:l8w8jwt_encode", "src/encode.c:write_header_and_payload", "src/claim.c:l8w8jwt_write_claims", "src/decode.c:l8w8jwt_parse_claims", "src/decode.c:l8w8jwt_unescape_string"]}
{"id": "C95", "title": "The locale has no say", "statement": "Decoding a token gives the same result in every locale the program may have set. What holds instead: the locale takes part in the type check (tolower) and in the date checks (strtoll). Without those checks it has no part; with them the result is that of the C locale if the dates asked about are integers and the type expected and the type found have the lower case they have in the C locale.", "quantifier": "all locales ISO C allows (any lower case, any further white space, any further forms of numbers), tokens, parameters, keys, algorithms, backends, builds and heaps", "why_tests_cant": "locales are functions on all bytes and texts; the project's tests run in the C locale", "anchors": ["src/util.c:l8w8jwt_strncmpic", "src/decode.c:l8w8jwt_validate_claims", "src/decode.c:l8w8jwt_decode"]}
{"id": "C96", "title": "Threads do not get in each other's way", "statement": "Threads that encode and decode at the same time, and release what they are given, share nothing but the allocator and what their programs let several of them look at. Whatever block a thread reads, writes or releases it holds at that moment, and no other thread holds a block at the same address, however the steps of the threads are interleaved and however the allocator reuses addresses; blocks that threads share were there before and none of the calls releases them.", "quantifier": "all numbers of threads; for each, all sequences of uses (encode and release the token; decode and release the claims; raw decoding, with or without validation, and release of the parts), all parameters, also in heap blocks shared among threads, platforms, backends, worlds; all interleavings of their heap events and all assignments of addresses by an allocator that hands out only what is not in use; runs into undefined behaviour up to there", "why_tests_cant": "Races show up in some schedules only; a test sees the few that happen. The absence of shared state is a fact about all paths of all functions.", "anchors": ["src/encode.c: l8w8jwt_encode", "src/decode.c: l8w8jwt_decode, l8w8jwt_decode_raw, l8w8jwt_decode_raw_no_validation", "src/claim.c: l8w8jwt_free_claims", "src/version.c: l8w8jwt_free"]}
{"id": "C97", "title": "The type of the clock", "statement": "Decoding a token gives the same result whatever integer type the system has for time_t, which l8w8jwt_time_t is. What holds instead: it does if the type can hold the present time with the tolerances of the requested checks added and subtracted, and, for an unsigned type of 64 bits, if the dates in the token are not below zero. Otherwise: with a signed type of 32 bits decoding any token with an nbf claim is undefined in the last seconds of the clock; with an unsigned one a token in time is flagged as expired while the clock reads less than the tolerance; with an unsigned one of 64 bits dates below zero never expire.", "quantifier": "signed and unsigned types of 32 and 64 bits, all clocks, tolerances, tokens, parameters, keys, algorithms, backends, builds and heaps; both functions that validate", "why_tests_cant": "a test runs on one platform, at the present time", "anchors": ["include/l8w8jwt/timehelper.h:l8w8jwt_time_t", "src/decode.c:l8w8jwt_validate_claims", "src/decode.c:l8w8jwt_decode", "src/decode.c:l8w8jwt_decode_raw"]}
{"id": "C98", "title": "A clock that cannot be read", "statement": "If the time is not available (time returns -1), no token passes a check of its dates. What holds instead: -1 is taken for a time. No token with an expiry date not below zero is flagged as expired; tokens with an nbf or iat claim of 255 or more are flagged whenever that claim is checked.", "quantifier": "all accepted tokens, parameters, tolerances, keys, algorithms, backends, builds and heaps, with the clock at -1", "why_tests_cant": "the clock does not fail in a test", "anchors": ["src/decode.c:l8w8jwt_validate_claims", "include/l8w8jwt/timehelper.h:l8w8jwt_time"]}
{"id": "C99", "title": "Two builds do the same", "statement": "Two builds of the library - width of size_t, sign of char, L8W8JWT_SMALL_STACK, L8W8JWT_ENABLE_EDDSA, version of chillbuff - give the same result for the same call: the same code, validation result, claims and parts of a token, or the same token. What holds instead: decoding does if the builds agree on EdDSA where it is asked for and an EdDSA key is ASCII, except where char is signed in one build only and the typ that is compared is not ASCII; the same for encoding, except for claims that are not ASCII and for texts too long for the narrower size_t, which that build refuses. A key for EdDSA that is not ASCII gives different signatures.", "quantifier": "all pairs of builds, calls of encode, decode, decode_raw and decode_raw_no_validation, tokens, claims, keys, algorithms, backends and heaps with memory enough", "why_tests_cant": "a test runs one build", "anchors": ["src/encode.c:l8w8jwt_encode", "src/decode.c:l8w8jwt_decode", "src/decode.c:l8w8jwt_decode_raw", "src/decode.c:l8w8jwt_decode_raw_no_validation", "src/util.c:l8w8jwt_hexstr2bin", "src/util.c:l8w8jwt_strncmpic"]}
{"id": "C100", "title": "Names in an issued token are unique", "statement": "No name occurs twice in the header or in the payload of an issued token (RFC 7515 section 4, RFC 7519 section 4). What holds instead: it does not exactly if the additional claims have different names, none of which is a name the library writes itself (alg, typ, for ES256K and EdDSA kty and crv; the registered claims that are set). Otherwise the token is issued with two algorithms in its header, or two subjects.", "quantifier": "all requests that come out as JSON, all claims, algorithms, keys, backends, builds and heaps with memory enough; names as JSON reads them", "why_tests_cant": "the tests use different names", "anchors": ["src/encode.c:l8w8jwt_encode", "src/encode.c:write_header_and_payload", "src/claim.c:l8w8jwt_write_claims"]}
{"id": "C101", "title": "A certificate stands for its key", "statement": "What is passed to l8w8jwt_decode or l8w8jwt_decode_raw as the key counts only for the public key in it: with the RS, PS and ES algorithms a certificate and a PEM key from which the backend reads the same public key give every token the same answer. And a secret that signs a token verifies it. The second part does not hold: a key with the text -----BEGIN CERTIFICATE----- in it is taken for a certificate whatever the algorithm, HS256 to HS512 included; if it is none, no token is accepted, and every one that can be cut into parts is refused with L8W8JWT_KEY_PARSE_FAILURE (unless EdDSA is asked of a build without it), while l8w8jwt_encode signs with that secret.", "quantifier": "all tokens, pairs of keys, parameters, algorithms, backends, builds and heaps with memory enough", "why_tests_cant": "a test has a few keys and certificates; no test uses a secret that contains the marker", "anchors": ["src/decode.c:l8w8jwt_decode", "src/decode.c:l8w8jwt_verify_signature", "src/encode.c:write_signature"]}
{"id": "C102", "title": "A private key stands for what is in it", "statement": "What is passed to l8w8jwt_encode as key and password counts only for the private key in it: with the RS, PS and ES algorithms two pairs of key text and password from which the backend reads the same private key (an encrypted file and a plain one, say) give the same token or the same error for every request; with HS, EdDSA and unknown algorithms the password is not looked at; a key that cannot be read with the password given never signs, and the request, if it is otherwise in order, is refused with L8W8JWT_KEY_PARSE_FAILURE.", "quantifier": "all requests, claims, pairs of keys and passwords, algorithms, backends, builds and heaps with memory enough", "why_tests_cant": "no test uses a password; a test has a few keys, the claim is about all", "anchors": ["src/encode.c:write_signature", "src/encode.c:l8w8jwt_encode"]}
{"id": "C103", "title": "What was checked is what is read", "statement": "After l8w8jwt_decode, l8w8jwt_get_claim on the claims handed out is defined for every key, and what it finds is what was checked: the flag of a requested check of sub, aud, iss or jti is clear exactly if a client that looks the claim up reads the expected text; the flags of exp, nbf, iat and typ are the verdict on the text the client reads, and set if it finds none. And that text is a claim of the payload. The last part does not hold: the first entry whose name starts with the key is checked and read, header parameters before claims, so a token with sub alice in its header and sub mallory in its payload is VALID for alice.", "quantifier": "all accepted tokens, keys to look up, parameters, clocks, algorithms, backends, builds and heaps", "why_tests_cant": "the tests decode a few tokens and look at the flags; they do not compare them with what a lookup finds for all tokens", "anchors": ["src/decode.c:l8w8jwt_validate_claims", "src/claim.c:l8w8jwt_get_claim", "src/decode.c:l8w8jwt_decode"]}
{"id": "C104", "title": "Checks can be split over calls", "statement": "Asking for less never makes a token worse: a call of l8w8jwt_decode or l8w8jwt_decode_raw that asks for some of the checks another call asks for, of the same token with the same key, has an outcome whenever the other has, with the same code, the same claims or texts and the same effect on the memory, and raises no flag that the other does not. And asking in two calls, one check here, another there or in both, comes to the same as asking for all of them in one: the one call has an outcome if the two have, and its flags are those of the two together. So a token is VALID for all the checks exactly if it is for each part of them.", "quantifier": "all tokens, divisions of the checks, parameters, output pointers, keys, clocks, algorithms, tokenizers and other backends, builds and heaps, whether memory runs out or not", "why_tests_cant": "there are 2^8 sets of checks and 3^8 ways to divide one into two, each for every token; the tests ask for a few", "anchors": ["src/decode.c:l8w8jwt_validate_claims", "src/decode.c:l8w8jwt_decode", "src/decode.c:l8w8jwt_decode_raw"]}
