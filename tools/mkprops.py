#!/usr/bin/env python3
"""Writes /verif/properties.jsonl (one JSON object per line)."""
import json
P = []
def p(title, statement, quantifier, why, anchors):
    P.append(dict(id="C%02d" % (len(P)+1), title=title, statement=statement,
                  quantifier=quantifier, why_tests_cant=why, anchors=anchors))

p("Base64 round trip",
  "Decoding the string produced by l8w8jwt_base64_encode with the same url flag succeeds and returns exactly the original bytes and length.",
  "every non-empty byte string the encoder can handle, both alphabets (url flag zero / non-zero)",
  "there are infinitely many inputs; the three tail lengths, the 72-column line wrapping and all byte values interact",
  ["src/base64.c:l8w8jwt_base64_encode", "src/base64.c:l8w8jwt_base64_decode"])
p("Base64 encoder emits RFC 4648",
  "With the url flag set l8w8jwt_base64_encode emits exactly the unpadded base64url text of RFC 4648 section 5 (bits regrouped by six, most significant first); with the flag clear it emits the padded standard base64 text, broken by a newline after every 72 characters and ended by a newline.",
  "every non-empty byte string, both url flags",
  "agreement with a bit-level specification must hold for every length and byte value",
  ["src/base64.c:l8w8jwt_base64_encode", "include/l8w8jwt/base64.h"])
p("Base64 encoder stays inside its buffer",
  "A successful l8w8jwt_base64_encode never writes outside the buffer it allocated, the output is NUL-terminated at *out_length, and *out_length counts exactly the characters before the terminator; a failing call hands out nothing.",
  "every input length below the counter limit of C05, every allocator outcome, both url flags",
  "the allocation formula (4n/3+4, +1/72, +1) must dominate the number of writes for every n",
  ["src/base64.c:l8w8jwt_base64_encode"])
p("Base64 encoder detects size overflow",
  "l8w8jwt_base64_encode returns L8W8JWT_OVERFLOW exactly when data_length*4 does not fit in size_t, and then allocates nothing; it never continues with a wrapped (too small) buffer size.",
  "every data_length representable in size_t, 32-bit and 64-bit size_t",
  "inputs near SIZE_MAX cannot be materialised in a test",
  ["src/base64.c:l8w8jwt_base64_encode"])
p("Base64 encoder has no arithmetic undefined behaviour",
  "l8w8jwt_base64_encode has defined behaviour for every readable non-empty input whose encoded size fits in size_t.",
  "every readable input, both url flags",
  "the internal line counter is an int that is never reset in url mode; it overflows only past 1.6 GB of input",
  ["src/base64.c:l8w8jwt_base64_encode (line_length)"])
p("Base64 decoder is memory safe on every input",
  "For every readable input string l8w8jwt_base64_decode never reads outside the given data_length bytes, never writes outside its allocation, never frees twice, and on any error return leaves no allocated block behind.",
  "every byte string and length, both url flags, every allocator outcome",
  "arbitrary (hostile) text with padding, junk and truncation in any position",
  ["src/base64.c:l8w8jwt_base64_decode"])
p("Base64 decoder never returns an empty result",
  "If l8w8jwt_base64_decode succeeds then 1 <= *out_length and *out_length <= 3*ceil(k/4) where k is the number of alphabet or '=' characters in the input.",
  "every input string, both url flags",
  "l8w8jwt_decode skips signature verification when the decoded signature is empty, so one empty success anywhere would be an authentication bypass",
  ["src/base64.c:l8w8jwt_base64_decode", "src/decode.c:l8w8jwt_verify_signature"])
p("Base64 decoder rejects characters outside the alphabet",
  "l8w8jwt_base64_decode fails on any input containing a character that is neither in the selected alphabet nor padding.",
  "every input string, both url flags",
  "any single accepted foreign character breaks token canonicity; tests sample a few",
  ["src/base64.c:l8w8jwt_base64_decode"])
p("Decoded buffer is NUL-terminated at its length",
  "After a successful l8w8jwt_base64_decode the byte at index *out_length of the output buffer is readable and zero, as the header promises.",
  "every input the decoder accepts",
  "depends on the unused low bits of the last character of the input",
  ["src/base64.c:l8w8jwt_base64_decode", "include/l8w8jwt/base64.h"])
p("String claims cannot inject JSON",
  "The text l8w8jwt_write_claims writes between the quotes for a key or a string value is a JSON string body (RFC 8259) that denotes exactly the caller's bytes: it contains no raw quote, control character or dangling backslash.",
  "every key and value byte string (on platforms where the lookup is defined), any number of claims",
  "security against injection is a statement about all strings",
  ["src/claim.c:l8w8jwt_escape_claim_string", "src/claim.c:l8w8jwt_write_claims"])
p("Header and payload are JSON objects with exactly the requested members",
  "When l8w8jwt_encode succeeds, the first segment decodes to a JSON object whose members are alg, typ (kty, crv) followed by the additional header claims, and the second to a JSON object whose members are iat, nbf, exp, sub, iss, aud, jti (those given) followed by the additional payload claims, in order and nothing else.",
  "every parameter set: any subset of the registered claims, any additional claims (allocation failures are the subject of C34)",
  "comma placement depends on which of fourteen fields are set",
  ["src/encode.c:write_header_and_payload", "src/claim.c:l8w8jwt_write_claims"])
p("Claim strings survive encode then decode",
  "A string written by the encoder's escaping and read back by the decoder's unescaping is the original string.",
  "every key and string value",
  "the escape and unescape tables must be inverse on every byte string, including adjacent escapes",
  ["src/claim.c:l8w8jwt_escape_claim_string", "src/decode.c:l8w8jwt_unescape_string"])
p("Claim unescaping stays inside its buffers",
  "Turning any JSON member into a claim never writes past the key_length+1 / value_length+1 bytes allocated for it, and both strings come out NUL-terminated at their stored length.",
  "every key text and value text, every allocator outcome",
  "hostile escape sequences at the very end of the text",
  ["src/decode.c:l8w8jwt_unescape_string", "src/decode.c:l8w8jwt_unescape_claim"])
p("Token shape",
  "A token returned by l8w8jwt_encode is three non-empty runs of URL-safe base64 characters separated by exactly two dots, NUL-terminated at *out_length, and the first two runs decode to the header and payload JSON.",
  "every parameter set for which encoding succeeds, every crypto backend; chillbuff growth does not fail (allocation failures are the subject of C34)",
  "must hold for every claim content and every signature value",
  ["src/encode.c:l8w8jwt_encode", "src/encode.c:write_token"])
p("The header names the algorithm that signed",
  "In every token returned by l8w8jwt_encode the alg header member is the JWA name of params.alg and the third segment is the base64url text of the signature computed with that algorithm, the matching SHA-2 digest and the given key over exactly the bytes before the second dot.",
  "every algorithm, key, claim set and crypto backend; chillbuff growth does not fail (allocation failures are the subject of C34)",
  "fourteen algorithms times unbounded inputs; a swapped digest or off-by-one in the signed range is invisible to a self round trip",
  ["src/encode.c:write_header_and_payload", "src/encode.c:write_signature", "src/encode.c:md_info_from_alg"])
p("Encoding refuses unknown algorithms",
  "If params.alg is not one of the fourteen supported ids (in particular -1 and the initial value -2) l8w8jwt_encode fails, returns no token and frees everything it allocated.",
  "every integer algorithm id and every other parameter, every allocator outcome",
  "unbounded integer domain",
  ["src/encode.c:write_header_and_payload", "src/encode.c:l8w8jwt_encoding_params_init"])
p("Encoding refuses unsuitable keys",
  "l8w8jwt_encode never returns an RS*/PS* token signed with a non-RSA key or an RSA key below 2048 bits, nor an ES* token signed with a key that is not on the curve of that algorithm, nor an EdDSA token from a key that is not 128 hex digits.",
  "every key, key size, curve and crypto backend",
  "quantifies over all keys and over the whole crypto library",
  ["src/encode.c:write_signature"])
p("Encode then decode round trip",
  "A token produced by l8w8jwt_encode is accepted by l8w8jwt_decode with the same algorithm and matching key: it returns L8W8JWT_SUCCESS, the signature flag is clear, and the claims are the header members then the payload members, with their keys, values and types, in order.",
  "every claim set in the decoder-invertible fragment, every key, every algorithm whose verify accepts what its sign produced",
  "composition of escaping, JSON writing, base64, signing, splitting, verification, tokenising and unescaping over unbounded inputs",
  ["src/encode.c:l8w8jwt_encode", "src/decode.c:l8w8jwt_decode"])
p("Signature enforcement",
  "If params.alg is one of the supported algorithms and l8w8jwt_decode returns L8W8JWT_SUCCESS with the signature-failure flag clear, then the token's third segment, as decoded, passed that algorithm's verification with the caller's key over exactly the bytes before the second dot.",
  "every token text, key, algorithm, validation parameters, allocator outcome and crypto backend",
  "soundness of verification is a statement about all attacker-chosen tokens",
  ["src/decode.c:l8w8jwt_verify_signature", "src/decode.c:l8w8jwt_decode"])
p("The token cannot choose its algorithm",
  "Which verification is performed is determined by params.alg and the key only; the token's own header (alg, jwk, kid...) never influences the signature verdict.",
  "every pair of tokens, keys and algorithms",
  "algorithm-confusion attacks quantify over all attacker-chosen headers",
  ["src/decode.c:l8w8jwt_verify_signature"])
p("Decoding with an unsupported algorithm id never validates",
  "If params.alg is neither -1 (explicitly none) nor a supported algorithm, l8w8jwt_decode does not report L8W8JWT_VALID; in particular a params struct fresh from l8w8jwt_decoding_params_init (alg = -2) accepts no token.",
  "every integer algorithm id outside the supported set, every token",
  "unbounded integer domain times all tokens",
  ["src/decode.c:l8w8jwt_verify_signature", "src/decode.c:l8w8jwt_decoding_params_init", "src/decode.c:l8w8jwt_validate_decoding_params"])
p("HMAC signatures are compared in full",
  "With HS256/384/512 a signature is accepted only if the decoded third segment equals the HMAC of the signing input byte for byte, including its length.",
  "every token and key",
  "needs the exact length comparison for all signatures, including longer and shorter ones",
  ["src/decode.c:l8w8jwt_verify_signature"])
p("Decoding is memory safe on every token",
  "For every NUL-terminated token text l8w8jwt_decode performs no out-of-bounds access, null dereference, double free or other undefined behaviour.",
  "every token text (hostile included), key, algorithm, crypto backend",
  "memory safety over all hostile inputs cannot be sampled",
  ["src/decode.c:l8w8jwt_decode", "src/decode.c:l8w8jwt_parse_claims", "src/decode.c:l8w8jwt_verify_signature"])
p("Identity claim validation is exact",
  "When validate_sub / validate_iss / validate_aud / validate_jti is given, the corresponding failure flag is set if and only if the token has no claim with exactly that name whose value is byte for byte the expected string.",
  "every claim list and expected string",
  "equality over all strings, prefixes and duplicates",
  ["src/decode.c:l8w8jwt_validate_claims", "src/claim.c:l8w8jwt_get_claim"])
p("Expiry validation",
  "With validate_exp set, the EXP flag is set if and only if the exp claim is missing or now - exp_tolerance_seconds is later than the exp value.",
  "every clock value, tolerance and exp claim text (a decimal integer)",
  "unbounded time values, including those around the 64-bit limits",
  ["src/decode.c:l8w8jwt_validate_claims"])
p("Not-before and issued-at validation",
  "With validate_nbf (validate_iat) set, the NBF (IAT) flag is set if and only if the claim is missing or now + tolerance is earlier than its value.",
  "every clock value, tolerance and claim text (a decimal integer)",
  "unbounded time values",
  ["src/decode.c:l8w8jwt_validate_claims"])
p("Type validation",
  "With validate_typ set, the TYP flag is set if and only if the typ claim is missing or differs from the expected string ignoring ASCII case.",
  "every typ value, expected string and length",
  "all string pairs and lengths",
  ["src/decode.c:l8w8jwt_validate_claims", "src/util.c:l8w8jwt_strncmpic"])
p("Only requested checks raise flags",
  "A validation flag can be raised only by the check the caller requested for it: each flag bit is independent, no other bit is ever set, and if nothing is requested and the signature verifies the result is L8W8JWT_VALID.",
  "every token, parameter set and clock",
  "2^8 combinations of requests times all tokens",
  ["src/decode.c:l8w8jwt_validate_claims", "include/l8w8jwt/decode.h:l8w8jwt_validation_result"])
p("Failure is never mistaken for validity",
  "If l8w8jwt_decode or l8w8jwt_decode_raw returns anything but L8W8JWT_SUCCESS then *out_validation_result is not L8W8JWT_VALID if it was written at all, and no claims are handed out; the final flags are written only together with L8W8JWT_SUCCESS.",
  "every input, parameter set, allocator outcome and crypto backend",
  "covers every error path of decoding",
  ["src/decode.c:l8w8jwt_decode", "src/decode.c:l8w8jwt_decode_raw"])
p("The three decode entry points agree",
  "l8w8jwt_decode and l8w8jwt_decode_raw return the same code and the same validation result for the same parameters; l8w8jwt_decode_raw and l8w8jwt_decode_raw_no_validation hand out the same header, payload and signature bytes whenever both succeed.",
  "every token and parameter set",
  "relational property over all inputs",
  ["src/decode.c:l8w8jwt_decode", "src/decode.c:l8w8jwt_decode_raw", "src/decode.c:l8w8jwt_decode_raw_no_validation"])
p("Decoded claims are the JSON members",
  "When the header and payload are valid JSON objects, the claims handed out by l8w8jwt_decode are exactly the header members followed by the payload members, in order, with nested arrays and objects kept as raw text and the type field matching the JSON value kind.",
  "every pair of valid JSON objects (any nesting, whitespace, number syntax)",
  "all JSON documents",
  ["src/decode.c:l8w8jwt_parse_claims"])
p("Decoding frees everything it does not hand out",
  "After l8w8jwt_decode returns, every block it allocated has been freed exactly once, except the claims array and strings it handed to the caller on success.",
  "every token, parameter set and allocator outcome",
  "every failure point of every path",
  ["src/decode.c:l8w8jwt_decode", "src/decode.c:l8w8jwt_parse_claims"])
p("Encoding frees everything it does not hand out",
  "After l8w8jwt_encode returns, every block it allocated has been freed exactly once, except the token handed to the caller on success.",
  "every parameter set, allocator outcome and crypto backend",
  "every failure point of every path",
  ["src/encode.c:l8w8jwt_encode"])
p("Encoding under memory pressure is all or nothing",
  "For every pattern of allocation failures l8w8jwt_encode either returns an error or the same token it would have returned without failures.",
  "every schedule of allocation failures",
  "fault schedules are unbounded",
  ["src/encode.c:write_header_and_payload", "src/claim.c:l8w8jwt_write_claims"])
p("Claim lookup finds the claim with the given key",
  "l8w8jwt_get_claim returns the first claim whose key is exactly the requested key, and NULL if there is none.",
  "every claim array and key",
  "all key pairs, in particular keys sharing a prefix",
  ["src/claim.c:l8w8jwt_get_claim"])
p("Case-insensitive comparison",
  "l8w8jwt_strncmpic returns 0 if and only if the two C strings agree, ignoring ASCII case, on their first n characters.",
  "every pair of C strings and every n",
  "all string pairs",
  ["src/util.c:l8w8jwt_strncmpic"])
p("Hex conversion",
  "l8w8jwt_hexstr2bin turns any even-length string of hexadecimal digits (either case, optional trailing NUL) into the bytes it denotes plus a NUL terminator, never writes past output_size, and rejects strings that are not hexadecimal.",
  "every string, length and output size",
  "all strings and sizes",
  ["src/util.c:l8w8jwt_hexstr2bin"])
p("Parameter validators and initialisers",
  "l8w8jwt_validate_encoding_params and l8w8jwt_validate_decoding_params return L8W8JWT_SUCCESS exactly for parameter sets meeting the documented requirements, and the documented code otherwise; encode and decode return that same code without touching anything else. The two initialisers produce parameters that ask for nothing and are refused until filled in.",
  "every parameter set",
  "product of all field values",
  ["src/encode.c:l8w8jwt_validate_encoding_params", "src/encode.c:l8w8jwt_encoding_params_init", "src/decode.c:l8w8jwt_validate_decoding_params", "src/decode.c:l8w8jwt_decoding_params_init"])
p("Key buffers are never over-read",
  "For every key length up to L8W8JWT_MAX_KEY_SIZE (which the validators accept) encoding and decoding read only inside the internal key buffer.",
  "every key of length 1..8192",
  "the boundary length together with the last key byte decides",
  ["src/encode.c:write_signature", "src/decode.c:l8w8jwt_verify_signature"])
p("A trailing NUL on an HMAC key is not part of the key",
  "For HS* algorithms a key given with and without one terminating NUL signs and verifies identically.",
  "every key not ending in NUL, every message",
  "all keys",
  ["src/encode.c:write_signature", "src/decode.c:l8w8jwt_verify_signature"])
p("Small-stack builds survive allocation failure",
  "In L8W8JWT_SMALL_STACK builds a failed allocation of the key or signature buffer makes encode/decode return L8W8JWT_OUT_OF_MEM without undefined behaviour.",
  "every allocation schedule",
  "fault schedules",
  ["src/encode.c:write_signature", "src/decode.c:l8w8jwt_verify_signature"])
p("Timestamps survive encode then decode",
  "An iat/nbf/exp value given to l8w8jwt_encode is written as a decimal integer that l8w8jwt_decode's validation reads back as the same value.",
  "every non-zero time_t value",
  "64-bit domain",
  ["src/encode.c:write_header_and_payload", "src/decode.c:l8w8jwt_validate_claims"])
p("Tokens have exactly three segments",
  "l8w8jwt_decode (alg other than -1) rejects every text that does not consist of exactly three dot-separated segments.",
  "every token text",
  "all texts",
  ["src/decode.c:l8w8jwt_decode_segments"])
p("ECDSA signatures are fixed-width r||s",
  "ES256/ES256K/ES384/ES512 tokens carry exactly 64/64/96/132 signature bytes, the big-endian r and s left-padded to half that width, and decoding splits any such signature back into the same r and s.",
  "every r, s below the width and every token",
  "r and s with leading zero bytes are rare in random tests",
  ["src/encode.c:write_signature", "src/decode.c:l8w8jwt_verify_signature"])
p("Only JSON objects are accepted as header and payload",
  "If l8w8jwt_decode returns L8W8JWT_SUCCESS then header and payload are JSON texts whose top-level value is an object.",
  "every token text",
  "all texts",
  ["src/decode.c:l8w8jwt_parse_claims"])
p("No leaks over any API history",
  "In any sequence of encode, decode, decode_raw and free calls by a client that frees what it is handed exactly once, no block is freed twice and at the end only blocks the client still owns are live.",
  "every finite sequence of API calls with any arguments and allocator outcomes",
  "unbounded histories",
  ["src/decode.c", "src/encode.c", "src/claim.c:l8w8jwt_free_claims", "src/version.c:l8w8jwt_free"])
p("Releasing claims",
  "l8w8jwt_free_claims on an array handed out by l8w8jwt_decode frees the array and every key and value exactly once and wipes only bytes inside those blocks; on NULL it does nothing.",
  "every claim array produced by decoding",
  "all arrays",
  ["src/claim.c:l8w8jwt_free_claims"])
p("Version functions",
  "l8w8jwt_get_version_string writes the NUL-terminated version string within 32 bytes and its digits, read as a decimal number, equal l8w8jwt_get_version_number.",
  "every initial buffer content",
  "agreement of two independently maintained constants for any caller buffer",
  ["src/version.c", "include/l8w8jwt/version.h"])
p("Encoding is memory safe",
  "l8w8jwt_encode performs no out-of-bounds access, null dereference, double free or other undefined behaviour for any readable parameter set.",
  "every parameter set whose pointers are readable for the stated lengths, every allocator outcome and crypto backend",
  "all parameter sets, allocation schedules and backends",
  ["src/encode.c:l8w8jwt_encode", "src/encode.c:write_header_and_payload", "src/encode.c:write_signature", "src/claim.c:l8w8jwt_write_claims"])
p("Valid tokens are accepted",
  "A token whose three parts are base64url texts, whose header and payload are JSON objects and whose signature verifies under the caller's key and algorithm is accepted by l8w8jwt_decode: it returns L8W8JWT_SUCCESS, the signature flag is clear, no flag is set if nothing else is to be validated, and the claims are the members of header and payload.",
  "every token text, key, algorithm and crypto backend",
  "acceptance of all valid tokens, whoever issued them, is a liveness statement over unbounded inputs",
  ["src/decode.c:l8w8jwt_decode", "src/decode.c:l8w8jwt_decode_segments", "src/decode.c:l8w8jwt_parse_claims", "src/decode.c:l8w8jwt_verify_signature"])
p("Issued tokens pass exactly the matching checks",
  "A token made by l8w8jwt_encode and decoded with the matching key passes a requested sub, aud, iss or jti check exactly if the expected string is the issued one, an exp, nbf or iat check exactly if that time was issued and is not out of time, and a typ check exactly if JWT is expected; no other flag is set, so if everything asked for was issued so the result is L8W8JWT_VALID.",
  "every encoding parameter set, every decoding request, every clock, key and crypto backend",
  "relates two unbounded parameter spaces, through JSON, base64 and the claim lookup",
  ["src/encode.c:l8w8jwt_encode", "src/decode.c:l8w8jwt_decode", "src/decode.c:l8w8jwt_validate_claims", "src/claim.c:l8w8jwt_get_claim"])
p("Claim parsing stays inside the token array",
  "Reading the claims of a header or payload (skipping nested values included) accesses only tokens that the tokenizer wrote; in particular it never reads past the token array, however large the text.",
  "all JSON object texts of any size and nesting, all tokens around them, all signatures (valid or not), all keys and algorithms, all heaps",
  "The over-read needs a text of at least 64 values and names whose last member is an array or object; with exactly 63 the outcome depends on an uninitialised stack token. Tests with small tokens never get there, and a stack over-read by one token usually goes unnoticed.",
  ["src/decode.c:l8w8jwt_parse_claims", "src/decode.c:l8w8jwt_decode", "src/decode.c:l8w8jwt_decode_raw"])
p("A valid verdict means what it says",
  "l8w8jwt_decode reports L8W8JWT_VALID for a token if and only if its signature verifies under the caller's algorithm and key and the payload's claims (for typ: the header's type) are exactly what the caller asked for.",
  "every token of JSON objects, every request for validation, every clock, key, algorithm and crypto backend",
  "both directions range over all tokens, including hostile ones whose header and payload carry members of the same name, and all requests",
  ["src/decode.c:l8w8jwt_decode", "src/decode.c:l8w8jwt_validate_claims", "src/decode.c:l8w8jwt_verify_signature", "src/claim.c:l8w8jwt_get_claim"])
p("Results do not depend on history",
  "The public functions keep no hidden state: two calls with the same arguments, in processes whose heaps have different pasts (other blocks allocated and freed, other buffers grown, other bytes left in freed memory), return the same codes, lengths, texts, claims and verdicts, are undefined in the same cases, allocate equally often and leave the same of their blocks in use, provided the allocator grants the same of the requests they make.",
  "all builds, crypto backends, argument values (valid or not), pairs of heaps and allocation outcomes",
  "a relation between two executions from unbounded, unrelated heap states; a read of uninitialised memory shows up only with unlucky contents",
  ["src/encode.c:l8w8jwt_encode", "src/encode.c:write_signature", "src/decode.c:l8w8jwt_decode", "src/decode.c:l8w8jwt_decode_raw", "src/decode.c:l8w8jwt_decode_raw_no_validation", "src/base64.c:l8w8jwt_base64_encode", "src/base64.c:l8w8jwt_base64_decode", "src/decode.c:l8w8jwt_unescape_claim"])
p("Decoding does not depend on uninitialised tokens",
  "What l8w8jwt_decode and l8w8jwt_decode_raw do does not depend on what the never-written elements of the JSON token array contain.",
  "all tokens, requests, keys, backends, heaps and all contents of the array",
  "the array is a local variable without initialiser: tests see one content of the stack, the property ranges over all",
  ["src/decode.c:l8w8jwt_parse_claims", "src/decode.c:l8w8jwt_decode", "src/decode.c:l8w8jwt_decode_raw"])
p("No memory corruption and no hang",
  "Whatever the arguments (also lengths that do not match the buffers, missing terminators, hostile tokens, unsuitable keys) and whatever the allocator does, every public function ends, and the only undefined behaviour it can run into is a read outside an object, an access through NULL, a signed overflow of a counter, or a bad index or argument to a table lookup; it never writes outside an object, never frees twice or what it does not own, and never uses an uninitialised variable.",
  "all argument values, buffer contents and sizes, tokens, keys, crypto backends, heaps and allocation outcomes",
  "ranges over all calls, including those that violate the documented preconditions, where tests show only particular crashes",
  ["src/encode.c:l8w8jwt_encode", "src/decode.c:l8w8jwt_decode", "src/decode.c:l8w8jwt_decode_raw", "src/decode.c:l8w8jwt_decode_raw_no_validation", "src/base64.c:l8w8jwt_base64_encode", "src/base64.c:l8w8jwt_base64_decode", "src/claim.c:l8w8jwt_write_claims", "src/claim.c:l8w8jwt_get_claim", "src/util.c:l8w8jwt_hexstr2bin"])
p("Time moves verdicts in one direction",
  "Checking one token at two times, or with two sets of tolerances, gives the same return code, claims and allocations, and verdicts that differ in the exp, nbf and iat bits only: an expired token stays expired as time goes by or the tolerance shrinks, a token that is not too early stays so as time goes by or the tolerance grows, and a token accepted at two times is accepted at every time in between.",
  "all tokens, requests, keys, backends, builds, heaps and pairs (triples) of times and tolerances",
  "a relation between executions at different times; tests fix the clock at a few values",
  ["src/decode.c:l8w8jwt_validate_claims", "src/decode.c:l8w8jwt_decode", "src/decode.c:l8w8jwt_decode_raw"])
p("The token ends where its length says",
  "The decoding functions look at the first jwt_length characters of the token buffer only: what is stored behind them, terminator or not, makes no difference.",
  "all tokens, lengths, contents of the memory behind the token, requests, keys, backends, builds and heaps",
  "a relation between two executions over unbounded buffers; tests pass properly terminated strings",
  ["src/decode.c:l8w8jwt_decode_segments", "src/decode.c:l8w8jwt_verify_signature", "src/decode.c:l8w8jwt_decode", "src/decode.c:l8w8jwt_decode_raw", "src/decode.c:l8w8jwt_decode_raw_no_validation"])
p("A token has one spelling",
  "No two different token texts with the same header and payload are both accepted for the same signature: changing a character of an accepted token makes it rejected.",
  "all accepted tokens, algorithms, keys, backends, and all other texts",
  "quantifies over all pairs of texts; tests alter a few characters of one token",
  ["src/base64.c:l8w8jwt_base64_decode", "src/decode.c:l8w8jwt_decode_segments", "src/decode.c:l8w8jwt_decode"])
p("Dates are compared by their numeric value",
  "An exp, nbf or iat claim that is a JSON number, with fraction and exponent (RFC 7519 NumericDate), is compared with the time by its numeric value.",
  "all accepted tokens, all JSON numbers, times and tolerances",
  "the set of number texts is infinite; tests use plain integers",
  ["src/decode.c:l8w8jwt_validate_claims", "src/decode.c:l8w8jwt_parse_claims"])

p("Equal tokens carry equal claims",
  "Two successful l8w8jwt_encode calls that return the same text were asked for the same: the same algorithm, the same additional header claims in the same order, the same registered claims and the same additional payload claims in the same order.",
  "all pairs of requests, on any platforms, with any keys, backends and heaps",
  "injectivity is a relation between all pairs of calls and rests on the JSON grammar being unambiguous; tests compare a few tokens",
  ["src/encode.c:l8w8jwt_encode", "src/encode.c:write_header_and_payload", "src/claim.c:l8w8jwt_write_claims"])

p("Decoding refuses keys that do not fit the algorithm",
  "A token is reported as signed only if the caller's verification key is one that RFC 7518 / RFC 8037 allow for the algorithm: an HMAC key as long as the digest, an RSA key of at least 2048 bits, an EC key on the algorithm's curve, an Ed25519 key of 32 bytes.",
  "all tokens, algorithms, keys, backends, requests, builds and heaps",
  "ranges over all keys and backends; the missing checks show only with keys nobody puts into a test suite",
  ["src/decode.c:l8w8jwt_verify_signature", "src/decode.c:l8w8jwt_decode", "src/decode.c:l8w8jwt_decode_raw"])

p("Crypto contexts are used by the rules",
  "Every call of l8w8jwt_encode, l8w8jwt_decode and l8w8jwt_decode_raw that returns initialised each mbedtls context before anything else was done with it, did not fill one that already owned something, used none before it was filled or after it was freed, drew random numbers only from a seeded generator, freed nothing twice (the key inside a certificate belongs to the certificate) and left no context that owns memory.",
  "all calls: arguments, algorithms, keys and certificates, backends (hence every failure of every mbedtls call), builds and allocation outcomes",
  "the error paths multiply: each mbedtls call can fail at each step of each algorithm; tests reach few of them and cannot see a context that is not freed",
  ["src/encode.c:write_signature", "src/decode.c:l8w8jwt_verify_signature", "src/encode.c:l8w8jwt_encode", "src/decode.c:l8w8jwt_decode", "src/decode.c:l8w8jwt_decode_raw"])

p("Copies of keys are wiped",
  "When a call of l8w8jwt_encode, l8w8jwt_decode or l8w8jwt_decode_raw returns, every buffer of its own into which it copied key material (the key buffer and the decoded Ed25519 private key) has been wiped since.",
  "all calls: arguments, algorithms, keys, backends, builds and allocation outcomes",
  "stale memory is invisible to tests, and every exit path has to be covered",
  ["src/encode.c:write_signature", "src/decode.c:l8w8jwt_verify_signature"])

p("Decoding takes memory in proportion to the token",
  "Whatever the text it is given, l8w8jwt_decode hands out claims that together take at most about twice the text's memory, and at most half as many claims as the text has bytes; the raw functions hand out segments of at most 3/4 of it plus 48 bytes; each call makes at most one allocation per byte of text, plus nine; the array of JSON tokens has at most one element per byte. Nested values are not copied once per level.",
  "all texts (tokens or not), keys, requests, builds, backends and allocation outcomes",
  "a bound for all inputs; amplification shows only for texts made for it",
  ["src/decode.c:l8w8jwt_decode", "src/decode.c:l8w8jwt_decode_raw", "src/decode.c:l8w8jwt_decode_raw_no_validation", "src/decode.c:l8w8jwt_parse_claims", "src/decode.c:l8w8jwt_unescape_claim", "src/base64.c:l8w8jwt_base64_decode"])

p("The key generator's extra entropy never weakens the seed",
  "examples/eddsa/keygen.c mixes the digest of its arguments into the random seed. Mixing keeps the seed's length, does nothing without arguments, and maps different seeds to different seeds: adding entropy must not lose that of the random generator.",
  "all seeds, all command lines, all digest functions",
  "the loss depends on the digest bytes; every run prints a key pair that looks fine",
  ["examples/eddsa/keygen.c:main"])

p("The example programs are free of undefined behaviour and give back their memory",
  "The programs in examples/*/encode.c and examples/*/decode.c run to their end without undefined behaviour, whatever the keys and tokens in them, and when they end nothing they or the library allocated is still allocated. An encoder prints the whole token that l8w8jwt_encode returned.",
  "all keys, tokens, times, builds, backends and allocation outcomes; all fourteen algorithms",
  "the programs are run by hand with one key and token each; error returns of the library, which they do not check, never occur in such runs, and leaks are invisible",
  ["examples/hs256/encode.c:main", "examples/hs256/decode.c:main", "examples/rs256/decode.c:main", "examples/eddsa/decode.c:main", "examples/hs384/decode.c:main"])

p("The example decoders accept the tokens of the example encoders, in time and signed",
  "Each example decoder finds a token of the corresponding example encoder valid exactly from a minute before its issue to a minute after its ten minutes, if its key matches the encoder's, flags exactly the times outside, and accepts no token whose signature does not verify with its key.",
  "all keys, times of issue and of decoding, builds, backends and tokens; all fourteen algorithms",
  "the decoders contain fixed tokens that expired long ago; no test runs encoder and decoder together or changes the clock",
  ["examples/hs256/encode.c:main", "examples/hs256/decode.c:main", "examples/rs512/encode.c:main", "examples/rs512/decode.c:main", "examples/eddsa/decode.c:main"])

p("Each return code of decoding means what it says",
  "l8w8jwt_decode, l8w8jwt_decode_raw and l8w8jwt_decode_raw_no_validation return each code only for its cause: NULL_ARG for a NULL pointer, INVALID_ARG for a length of zero or an oversized key, UNSUPPORTED_ALG for EdDSA in a build without it, OUT_OF_MEM if and only if an allocation failed, BASE64_FAILURE if a segment is not base64url, KEY_PARSE_FAILURE, WRONG_KEY_TYPE and SHA2_FAILURE for such a failure of the backend, DECODE_FAILED_MISSING_SIGNATURE for a text of two segments, DECODE_FAILED_INVALID_TOKEN_FORMAT if there is no dot or a segment is not a JSON object.",
  "all texts, keys, algorithms, requests, backends, builds and allocation outcomes",
  "the code depends on which of many failures comes first; tests look at single failures and cannot make allocations fail",
  ["src/decode.c:l8w8jwt_decode", "src/decode.c:l8w8jwt_decode_raw", "src/decode.c:l8w8jwt_decode_raw_no_validation", "src/decode.c:l8w8jwt_decode_segments", "src/decode.c:l8w8jwt_verify_signature", "src/decode.c:l8w8jwt_parse_claims", "include/l8w8jwt/retcodes.h"])

p("Each return code of encoding means what it says",
  "l8w8jwt_encode returns each code only for its cause: NULL_ARG for a NULL pointer, INVALID_ARG for a key length of zero or above the limit, a claims array without elements or an unknown algorithm, OUT_OF_MEM if and only if an allocation failed, OVERFLOW if the base64 text of header or payload has no representable size, the key, digest, random generator and signature codes for such a failure of the backend or a key that does not fit the algorithm, UNSUPPORTED_ALG for EdDSA in a build without it; success only if memory sufficed.",
  "all requests, keys, algorithms, backends, builds and allocation outcomes",
  "the code depends on which of many failures comes first; tests look at single failures and cannot make allocations fail",
  ["src/encode.c:l8w8jwt_encode", "src/encode.c:write_header_and_payload", "src/encode.c:write_signature", "src/encode.c:write_token", "src/claim.c:l8w8jwt_write_claims", "include/l8w8jwt/retcodes.h"])

p("Decoded claims can be encoded again",
  "The claims l8w8jwt_decode hands out can be given to l8w8jwt_encode as additional claims, from any number of tokens and in any order: the new token's JSON members mean the same as the old ones, and decoding it gives claims with the same keys, values and types.",
  "all tokens with JSON header and payload, all selections of their claims, all algorithms, keys and backends",
  "the two directions use different escape rules; only some characters in names and values show it, and no test feeds decoded claims back",
  ["src/decode.c:l8w8jwt_decode", "src/decode.c:l8w8jwt_unescape_claim", "src/encode.c:l8w8jwt_encode", "src/claim.c:l8w8jwt_write_claims", "src/claim.c:l8w8jwt_escape_claim_string"])

p("Encoding takes memory in proportion to the request",
  "l8w8jwt_encode makes at most eleven allocations (not counting the growth of its string builders), and the token it hands out, with its block, is at most eight times as long as the names and values of the claims it was given, plus a constant: escaping, base64 and the signature cannot blow up a small request.",
  "all requests, keys, backends, builds, allocation and growth outcomes",
  "a bound over all requests; tests see the length of a few tokens",
  ["src/encode.c:l8w8jwt_encode", "src/encode.c:write_header_and_payload", "src/encode.c:write_signature", "src/encode.c:write_token", "src/claim.c:l8w8jwt_write_claims", "src/claim.c:l8w8jwt_escape_claim_string"])

p("Only the memory a call asks for can influence it",
  "What base64 encoding and decoding, escaping, writing and freeing claims, l8w8jwt_encode, l8w8jwt_decode, l8w8jwt_decode_raw and l8w8jwt_decode_raw_no_validation do depends on the heap only through the outcomes of the allocations and appends they make. With eleven allocations that succeed l8w8jwt_encode, with as many as the text has bytes and nine more decoding, and with three decoding without validation, do exactly what they do with unlimited memory.",
  "all arguments, heaps, allocation and growth outcomes, backends and builds",
  "tests run with plenty of memory only; that this tells how the code behaves with just enough is a statement about all runs",
  ["src/encode.c:l8w8jwt_encode", "src/decode.c:l8w8jwt_decode", "src/decode.c:l8w8jwt_decode_raw", "src/decode.c:l8w8jwt_decode_raw_no_validation", "src/base64.c:l8w8jwt_base64_encode", "src/base64.c:l8w8jwt_base64_decode", "src/claim.c:l8w8jwt_write_claims", "src/claim.c:l8w8jwt_free_claims"])

p("Exactly which tokens make decoding undefined",
  "With memory at hand, a key and expectations that can be read, and a NUL-terminated token text of at most INT_MAX bytes, l8w8jwt_decode and l8w8jwt_decode_raw are undefined exactly if: all parts decode, the key is accepted, and the signature is shorter than what the algorithm reads or the key lacks the part it needs; or the verdict is reached and reading the claims of header or payload goes past the token array (64 or more tokens ending in a name without value or in a container, or 63 ending in a container, depending on the stack contents); or the typ is compared and a byte outside what tolower takes is met before the texts differ. Every other token, JSON or not, is handled.",
  "all tokens (any bytes), parameters, keys, algorithms, backends and builds",
  "an exact boundary over all byte strings; tests and fuzzing find points on one side of it",
  ["src/decode.c:l8w8jwt_decode", "src/decode.c:l8w8jwt_decode_raw", "src/decode.c:l8w8jwt_parse_claims", "src/decode.c:l8w8jwt_verify_signature", "src/decode.c:l8w8jwt_validate_claims", "src/util.c:l8w8jwt_strncmpic"])

p("What decoding does, for every token",
  "With memory at hand, a key and expectations that can be read, and a NUL-terminated token text of at most INT_MAX bytes, what l8w8jwt_decode does is given by a relation between call and outcome that is written without the code, and is a function: an error code (and which, and whether NOT_VALID is stored), or a validation result together with the list of claims handed out, or undefined behaviour. l8w8jwt_decode_raw has the same code and result and hands out the decoded parts; l8w8jwt_decode_raw_no_validation cuts the token the same way and nothing else. In particular a token is reported valid exactly if it has three base64url parts, the key can be used and the signature verifies over header and payload, header and payload can be read, and no requested check fails.",
  "all tokens (any bytes), parameters, keys, algorithms, backends, builds and times",
  "a complete specification in both directions; tests compare with expected results on chosen tokens",
  ["src/decode.c:l8w8jwt_decode", "src/decode.c:l8w8jwt_decode_raw", "src/decode.c:l8w8jwt_decode_raw_no_validation", "src/decode.c:l8w8jwt_parse_claims", "src/decode.c:l8w8jwt_verify_signature", "src/decode.c:l8w8jwt_validate_claims", "src/decode.c:l8w8jwt_decode_segments"])

p("What encoding does, for every request",
  "With memory at hand and with parameters that can be read, what l8w8jwt_encode does is given by a relation between request and outcome that is written without the code, and is a function: the token (header members in order, registered claims in order, additional claims with the separator as coded, base64url of both, signature by the algorithm) and its length, or an error code and which, or undefined behaviour and why (a byte with the sign bit in a string that is escaped where char is signed, a text whose base64 length passes INT_MAX, a key of the maximal length without NUL, a key lacking the part its kind promises, an RSA modulus beyond the signature buffer). So a token is issued, and the call is undefined, exactly if the relation says so; the signatures are those of the standard's algorithms.",
  "all parameters (any claims, times, strings, keys, algorithms), backends and builds",
  "a complete specification in both directions; tests compare with expected results on chosen requests",
  ["src/encode.c:l8w8jwt_encode", "src/encode.c:write_header_and_payload", "src/encode.c:write_signature", "src/encode.c:write_token", "src/encode.c:l8w8jwt_validate_encoding_params", "src/claim.c:l8w8jwt_write_claims", "src/claim.c:l8w8jwt_escape_claim_string", "src/base64.c:l8w8jwt_base64_encode"])

p("An accepted token says what its issuer put into it, or it is forged",
  "If l8w8jwt_decode succeeds on any text and does not flag the signature, then, for any log of tokens issued with l8w8jwt_encode, either the text holds a signature that verifies for a text no token of the log was signed for (a forgery), or some token of the log has the same signed part; then the claims handed out are those its request asked for, and the flags for issuer, subject, audience, id, times and type are those of comparing the expectations with that request. In particular a token found valid for a subject was issued for that subject and is in time, or is forged.",
  "all texts an attacker may hand in, logs of issued tokens, requests, algorithms, keys, backends, clocks",
  "the adversary's text is arbitrary; tests try tokens that were issued and a few that were tampered with",
  ["src/decode.c:l8w8jwt_decode", "src/decode.c:l8w8jwt_verify_signature", "src/decode.c:l8w8jwt_validate_claims", "src/encode.c:l8w8jwt_encode"])

p("Decoding when memory is short",
  "Whichever of its allocations and appends are refused, l8w8jwt_decode (and l8w8jwt_decode_raw) comes to what it comes to with all the memory it wants, or, only if something was refused, to one of: OUT_OF_MEM; INVALID_TOKEN_FORMAT once the signature check is passed; success with some of the claims missing, the flags being those of the claims that are left; in builds with the key on the heap, undefined behaviour; in builds whose list does not clear itself, undefined behaviour. Error codes come with NOT_VALID and without claims. If no two claims have names starting with the same requested name, a check that fails with enough memory fails when memory is short, and a token found valid when memory is short is found valid with enough memory; without this proviso a token can become valid because memory was short.",
  "all patterns of refused allocations and appends, tokens, parameters, keys, algorithms, backends and builds",
  "2^n patterns of failure for n requests, times all tokens; tests do not make allocations fail",
  ["src/decode.c:l8w8jwt_decode", "src/decode.c:l8w8jwt_decode_raw", "src/decode.c:l8w8jwt_parse_claims", "src/decode.c:l8w8jwt_decode_segments", "src/decode.c:l8w8jwt_verify_signature", "src/decode.c:l8w8jwt_unescape_claim"])

p("Encoding when memory is short",
  "Whichever of its allocations and appends are refused, l8w8jwt_encode does what a relation says that is written without the code and is the one of C76 when nothing is refused: where an append may have been refused the piece may be missing; where an allocation may have been refused a group of claims (header, registered, additional) may be missing altogether, or the result is OUT_OF_MEM (BASE64_FAILURE for the signature's), or in builds with the key on the heap undefined behaviour; and nothing else. The signature of a token that is returned covers exactly the bytes before it, with the caller's key and algorithm, however short memory was. If only allocations were refused, each group of claims is complete or missing. Refused appends can turn the claims asked for into others.",
  "all patterns of refused allocations and appends, requests, keys, algorithms, backends and builds",
  "2^n patterns of failure for n requests, times all requests; tests do not make allocations fail",
  ["src/encode.c:l8w8jwt_encode", "src/encode.c:write_header_and_payload", "src/encode.c:write_signature", "src/encode.c:write_token", "src/claim.c:l8w8jwt_write_claims", "src/claim.c:l8w8jwt_escape_claim_string", "src/base64.c:l8w8jwt_base64_encode"])

p("Output parameters are written as documented",
  "The header files say what is stored through the output pointers and when. l8w8jwt_decode and l8w8jwt_decode_raw: if the arguments are refused, nothing; if decoding fails afterwards, ~0 as validation result; if it succeeds, the flags. The claims and their number, and the raw parts, are written only if decoding succeeds; the number is 0 if the claims are not asked for. l8w8jwt_encode and the base64 functions store the length only on success, together with a buffer that is the caller's to free, and otherwise leave *out alone or set it to NULL.",
  "all arguments (NULL or not), tokens, requests, backends, builds and memory states",
  "the documented contract holds for every combination of output pointers and every way to fail; tests pass all of them and look at success",
  ["src/decode.c:l8w8jwt_decode", "src/decode.c:l8w8jwt_decode_raw", "src/decode.c:l8w8jwt_decode_raw_no_validation", "include/l8w8jwt/decode.h:l8w8jwt_decode", "include/l8w8jwt/decode.h:l8w8jwt_decode_raw", "src/encode.c:write_token", "src/base64.c:l8w8jwt_base64_encode", "src/base64.c:l8w8jwt_base64_decode"])

p("Memory is given back to the allocator it came from",
  "The application may replace the library's malloc and calloc by functions of its own (README, Custom allocators). Every block the library releases was obtained before, from one source, and is released with the function that belongs to that source: libc's free never receives a block of the application's allocator, and chillbuff_free receives only chillbuff's own blocks. This also holds of what the documentation leaves to the caller: l8w8jwt_free on the token and the raw parts, l8w8jwt_free_claims on the claims.",
  "all builds (which of malloc and calloc are replaced, small stack or not), requests, tokens, backends and patterns of refused memory, all runs up to their end",
  "over all runs and builds; tests run the default build, where both functions are libc's and nothing can be mixed up",
  ["include/l8w8jwt/util.h:L8W8JWT_PLATFORM_MALLOC_ALT", "include/l8w8jwt/util.h:L8W8JWT_PLATFORM_CALLOC_ALT", "src/version.c:l8w8jwt_free", "src/encode.c:write_header_and_payload", "src/encode.c:write_signature", "src/encode.c:write_token", "src/decode.c:l8w8jwt_unescape_claim", "src/decode.c:l8w8jwt_parse_claims", "src/decode.c:l8w8jwt_decode", "src/claim.c:l8w8jwt_free_claims", "src/base64.c:l8w8jwt_base64_encode", "src/base64.c:l8w8jwt_base64_decode"])

p("Claims and keys are wiped before their memory is released",
  "l8w8jwt_free_claims overwrites names, values and the array before it frees them; so nothing of the claims can be read in released memory afterwards. Every block that decoding and the release of its claims give back holds nothing any more: the claims' blocks, whether released by the caller, because decoding fails, or because they are not asked for; copies of the key; the decoded parts of the token.",
  "all tokens, parameters, builds, backends and patterns of refused memory, all runs up to their end",
  "what released memory holds cannot be looked at by a test without undefined behaviour",
  ["src/claim.c:l8w8jwt_free_claims", "src/decode.c:l8w8jwt_decode", "src/decode.c:l8w8jwt_decode_raw", "src/decode.c:l8w8jwt_decode_raw_no_validation", "src/decode.c:l8w8jwt_unescape_claim", "src/decode.c:l8w8jwt_verify_signature", "src/encode.c:write_signature"])

p("Memory is used only while it is held",
  "No function reads, writes or releases a heap block that is not held at that moment: none after its release, none before it was obtained. No block is obtained twice while held. What a call hands out (token, claims array, names and values, raw parts) is new, all distinct and still held when the call returns, and the caller's own blocks stay held. l8w8jwt_free_claims gives up exactly the blocks of the claims it is told to release. Whole uses (encode and release; decode and release, in its three forms) have the same property.",
  "all parameters (whose heap blocks, if any, are held), tokens, builds, backends, heaps and patterns of refused memory; all runs, including up to the point where undefined behaviour of another kind sets in",
  "a use after release goes unnoticed in a test unless the block was reused in between; paths where memory is refused are not run at all",
  ["src/encode.c:write_header_and_payload", "src/encode.c:write_signature", "src/encode.c:l8w8jwt_encode", "src/decode.c:l8w8jwt_decode", "src/decode.c:l8w8jwt_decode_raw", "src/decode.c:l8w8jwt_decode_raw_no_validation", "src/decode.c:l8w8jwt_parse_claims", "src/decode.c:l8w8jwt_unescape_claim", "src/claim.c:l8w8jwt_free_claims", "src/base64.c:l8w8jwt_base64_decode"])

p("Keys influence signatures only",
  "Two successful decodings of the same text hand out the same claims (or raw parts) whatever the algorithm, the key, the requested checks, the crypto backend, the clock and the heap are. Every validation flag but the signature flag is the same if both callers asked the same for it (for exp, nbf and iat: at the same time), whatever key was used. The signature flag is the same for the same token, algorithm, key and backend, whatever else was requested and whatever the time is. Two tokens made from the same request under different keys or passwords are the same text up to the last dot; what follows is the signature of that text.",
  "all pairs of calls of l8w8jwt_decode, of l8w8jwt_decode_raw, and of l8w8jwt_encode, which succeed without being refused memory, over all texts, parameters, builds, backends with the same JSON tokenizer, clocks and heaps",
  "it relates two runs; a test would have to try all pairs of keys, requests and heaps",
  ["src/decode.c:l8w8jwt_decode", "src/decode.c:l8w8jwt_decode_raw", "src/decode.c:l8w8jwt_verify_signature", "src/decode.c:l8w8jwt_parse_claims", "src/decode.c:l8w8jwt_validate_claims", "src/encode.c:l8w8jwt_encode", "src/encode.c:write_header_and_payload", "src/encode.c:write_signature"])

p("Times do not help to forge",
  "Verifying a wrong signature of the right length takes the same time whichever it is, so whoever presents tokens and watches the clock learns no more from it than from the answers. In particular nobody without the key gets an HS256, HS384 or HS512 signature for a header and payload of their choice in fewer questions than trying out needs.",
  "all strategies of asking, in which each question may depend on all answers and times before, all keys, texts, HMAC functions, builds and heaps",
  "a strategy is a tree of unbounded depth, the key is unknown to it; a test measures one machine's memcmp on a few signatures",
  ["src/decode.c:l8w8jwt_verify_signature", "src/decode.c:l8w8jwt_decode"])

p("The library reads the tokens it issues, JSON or not",
  "Some tokens encode issues have a header or payload that is not JSON: a comma is missing after registered strings given with length 0, or one too many is written (C11). The library's own decoder accepts them all the same, with the matching key and without reporting a signature failure (nor anything else if nothing else is to be checked), and gives back every claim asked for with its name, value and type, in order.",
  "all encode requests whose literal values are JSON, whatever their commas, and all matching keys, builds and decoding requests, for claims within the decoder's token limit",
  "the texts concerned are outside the grammar any JSON test generator draws from; that the tolerance of the tokenizer covers exactly what the encoder gets wrong is a claim about both",
  ["src/claim.c:l8w8jwt_write_claims", "src/encode.c:write_header_and_payload", "src/decode.c:l8w8jwt_parse_claims", "src/decode.c:l8w8jwt_decode"])

p("What the project's own tests come to",
  "Each test of tests.c that issues a token and decodes it passes if the decoding comes less than half a minute after the issuing, and in general exactly within the window of delays its tolerances imply; it leaves the heap as it was exactly if it does not ask for the claims. The test that decodes an HS256 token as HS384 reads past the end of the decoded signature. The tests that sign with a key of another curve pass, as do those on bad arguments, on Base64, on parameter defaults, on reading and writing claims and on a token with escaped slashes.",
  "the 56 tests of that kind, all backends and keyrings in which the keys belong together as the tests mean them, all clock readings, delays, heaps and builds",
  "a test cannot say under which delays, machines and backends it would pass, nor that it runs into undefined behaviour without a sanitizer",
  ["tests/tests.c:test_l8w8jwt_decode_valid_signature_hs256", "tests/tests.c:test_l8w8jwt_decode_invalid_signature_hs256", "tests/tests.c:test_l8w8jwt_decode_valid_nbf_tolerance", "tests/tests.c:test_l8w8jwt_decode_invalid_signature_because_wrong_alg_type", "src/encode.c:l8w8jwt_encode", "src/decode.c:l8w8jwt_decode"])

p("HMAC tokens carry RFC 7518's HMAC of the caller's key",
  "With an HMAC that follows RFC 2104, the third part of an HS256, HS384 or HS512 token is the HMAC of the first two under the caller's key bytes, and a signature is accepted exactly if it is; although one NUL at the end of the key is cut off. Two keys that RFC 2104 fills up to the same block (equal but for zeros at the end, or a long key and its hash) get the same answer for every token.",
  "all parameters, tokens, keys, hash functions with SHA-2's digest lengths, platforms, heaps",
  "a test compares a few keys with a few published tokens; it cannot show that no key makes a difference, nor find the one in 256 long keys for which it does",
  ["src/encode.c:write_signature", "src/encode.c:l8w8jwt_encode", "src/decode.c:l8w8jwt_verify_signature", "src/decode.c:l8w8jwt_decode"])

p("Critical header parameters and everything else nobody asked for",
  "A token whose header lists extensions in crit that the library does not understand is not accepted (RFC 7515, 4.1.11). What holds instead: header parameters and claims whose names do not start with a name the caller asks about have no influence on the verdict, whatever they are, nor has the kind of the values.",
  "all pairs of presented tokens that agree in the members asked about and in whether their signatures verify, all parameters, keys, backends, builds and heaps",
  "it relates two runs over all pairs of tokens; a test adds one extra member to one token",
  ["src/decode.c:l8w8jwt_decode", "src/decode.c:l8w8jwt_validate_claims", "src/decode.c:l8w8jwt_parse_claims", "src/claim.c:l8w8jwt_get_claim"])

p("Audiences that are lists",
  "A token whose audience is a list is meant for each member of the list, so a caller who expects one of them is not told that the audience fails (RFC 7519, 4.1.3). What holds instead: if the first aud member is an array, the flag is clear exactly if the caller's text is the array as written, brackets, quotes and white space included; no text that does not start with a bracket will do.",
  "all presented tokens in which the first member whose name starts with aud is an array named aud, all expected audiences, parameters, backends, builds and heaps",
  "no test of the project uses a list; that no expected text but one passes is about all texts",
  ["src/decode.c:l8w8jwt_decode", "src/decode.c:l8w8jwt_validate_claims", "src/decode.c:l8w8jwt_parse_claims", "src/claim.c:l8w8jwt_get_claim"])

p("Claims that occur twice",
  "A token with a duplicate claim name is rejected, or its last occurrence counts (RFC 7519, section 4). What holds instead: it is accepted, and the first occurrence alone decides the flag, in the header before the payload.",
  "all presented tokens in which a member named as one of the identity claims occurs again anywhere later, all parameters, backends, builds and heaps",
  "the number and position of the duplicates, and what surrounds them, are unbounded",
  ["src/decode.c:l8w8jwt_decode", "src/decode.c:l8w8jwt_validate_claims", "src/decode.c:l8w8jwt_parse_claims", "src/claim.c:l8w8jwt_get_claim"])

p("Dates and names that are of another kind",
  "sub is a string and exp, nbf and iat are numbers (RFC 7519, 4.1); a token in which they are something else does not pass the check. What holds instead: the kind is not looked at. A date is read off the value's text by strtoll, quotes removed from strings, so a string counts as the number it begins with, and null, true, false, arrays and objects count as 0.",
  "all presented tokens, dates requested, values of any kind, tolerances, clocks, backends, builds and heaps",
  "the values concerned are all JSON values; the project's tests use numbers",
  ["src/decode.c:l8w8jwt_decode", "src/decode.c:l8w8jwt_validate_claims", "src/decode.c:l8w8jwt_parse_claims", "src/claim.c:l8w8jwt_get_claim"])

p("How long reading a header or payload takes",
  "The number of steps the tokenizer takes on the header or payload of a token is at most proportional to its length, so that the cost of a token (which is read whether or not its signature verifies) is bounded by its size. What holds instead: it is at most quadratic, and every JSON object with m members takes at least m(m-1) steps, as at each comma the tokenizer goes back over all tokens to find the object it is in.",
  "all byte strings for the upper bounds, all JSON objects with any members for the lower one",
  "asymptotic: a test measures a few texts, and those of the project have ten members",
  ["src/decode.c:l8w8jwt_parse_claims", "src/decode.c:JSMN_STATIC"])

p("The character encoding of tokens",
  "The header and the payload of an issued token are UTF-8 (RFC 8259, 8.1), and a token whose header or payload is not UTF-8 is not accepted (RFC 7519, 7.2). What holds instead: neither is checked. The header of an issued token is UTF-8 exactly if all names and values passed for it are, likewise the payload; and reading a token whose header and payload are UTF-8 hands out names and values that are UTF-8.",
  "all parameters, platforms, keys, algorithms, backends and heaps; all accepted tokens; all byte strings as names and values",
  "a text has unboundedly many characters, each of 1 to 4 bytes, and writing escapes some while reading resolves escapes; the project's tests pass ASCII",
  ["src/encode.c:l8w8jwt_encode", "src/encode.c:write_header_and_payload", "src/claim.c:l8w8jwt_write_claims", "src/decode.c:l8w8jwt_parse_claims", "src/decode.c:l8w8jwt_unescape_string"])

p("The locale has no say",
  "Decoding a token gives the same result in every locale the program may have set. What holds instead: the locale takes part in the type check (tolower) and in the date checks (strtoll). Without those checks it has no part; with them the result is that of the C locale if the dates asked about are integers and the type expected and the type found have the lower case they have in the C locale.",
  "all locales ISO C allows (any lower case, any further white space, any further forms of numbers), tokens, parameters, keys, algorithms, backends, builds and heaps",
  "locales are functions on all bytes and texts; the project's tests run in the C locale",
  ["src/util.c:l8w8jwt_strncmpic", "src/decode.c:l8w8jwt_validate_claims", "src/decode.c:l8w8jwt_decode"])

p("Threads do not get in each other's way",
  "Threads that encode and decode at the same time, and release what they are given, share nothing but the allocator and what their programs let several of them look at. Whatever block a thread reads, writes or releases it holds at that moment, and no other thread holds a block at the same address, however the steps of the threads are interleaved and however the allocator reuses addresses; blocks that threads share were there before and none of the calls releases them.",
  "all numbers of threads; for each, all sequences of uses (encode and release the token; decode and release the claims; raw decoding, with or without validation, and release of the parts), all parameters, also in heap blocks shared among threads, platforms, backends, worlds; all interleavings of their heap events and all assignments of addresses by an allocator that hands out only what is not in use; runs into undefined behaviour up to there",
  "Races show up in some schedules only; a test sees the few that happen. The absence of shared state is a fact about all paths of all functions.",
  ["src/encode.c: l8w8jwt_encode", "src/decode.c: l8w8jwt_decode, l8w8jwt_decode_raw, l8w8jwt_decode_raw_no_validation", "src/claim.c: l8w8jwt_free_claims", "src/version.c: l8w8jwt_free"])

p("The type of the clock",
  "Decoding a token gives the same result whatever integer type the system has for time_t, which l8w8jwt_time_t is. What holds instead: it does if the type can hold the present time with the tolerances of the requested checks added and subtracted, and, for an unsigned type of 64 bits, if the dates in the token are not below zero. Otherwise: with a signed type of 32 bits decoding any token with an nbf claim is undefined in the last seconds of the clock; with an unsigned one a token in time is flagged as expired while the clock reads less than the tolerance; with an unsigned one of 64 bits dates below zero never expire.",
  "signed and unsigned types of 32 and 64 bits, all clocks, tolerances, tokens, parameters, keys, algorithms, backends, builds and heaps; both functions that validate",
  "a test runs on one platform, at the present time",
  ["include/l8w8jwt/timehelper.h:l8w8jwt_time_t", "src/decode.c:l8w8jwt_validate_claims", "src/decode.c:l8w8jwt_decode", "src/decode.c:l8w8jwt_decode_raw"])

p("A clock that cannot be read",
  "If the time is not available (time returns -1), no token passes a check of its dates. What holds instead: -1 is taken for a time. No token with an expiry date not below zero is flagged as expired; tokens with an nbf or iat claim of 255 or more are flagged whenever that claim is checked.",
  "all accepted tokens, parameters, tolerances, keys, algorithms, backends, builds and heaps, with the clock at -1",
  "the clock does not fail in a test",
  ["src/decode.c:l8w8jwt_validate_claims", "include/l8w8jwt/timehelper.h:l8w8jwt_time"])

p("Two builds do the same",
  "Two builds of the library - width of size_t, sign of char, L8W8JWT_SMALL_STACK, L8W8JWT_ENABLE_EDDSA, version of chillbuff - give the same result for the same call: the same code, validation result, claims and parts of a token, or the same token. What holds instead: decoding does if the builds agree on EdDSA where it is asked for and an EdDSA key is ASCII, except where char is signed in one build only and the typ that is compared is not ASCII; the same for encoding, except for claims that are not ASCII and for texts too long for the narrower size_t, which that build refuses. A key for EdDSA that is not ASCII gives different signatures.",
  "all pairs of builds, calls of encode, decode, decode_raw and decode_raw_no_validation, tokens, claims, keys, algorithms, backends and heaps with memory enough",
  "a test runs one build",
  ["src/encode.c:l8w8jwt_encode", "src/decode.c:l8w8jwt_decode", "src/decode.c:l8w8jwt_decode_raw", "src/decode.c:l8w8jwt_decode_raw_no_validation", "src/util.c:l8w8jwt_hexstr2bin", "src/util.c:l8w8jwt_strncmpic"])

p("Names in an issued token are unique",
  "No name occurs twice in the header or in the payload of an issued token (RFC 7515 section 4, RFC 7519 section 4). What holds instead: it does not exactly if the additional claims have different names, none of which is a name the library writes itself (alg, typ, for ES256K and EdDSA kty and crv; the registered claims that are set). Otherwise the token is issued with two algorithms in its header, or two subjects.",
  "all requests that come out as JSON, all claims, algorithms, keys, backends, builds and heaps with memory enough; names as JSON reads them",
  "the tests use different names",
  ["src/encode.c:l8w8jwt_encode", "src/encode.c:write_header_and_payload", "src/claim.c:l8w8jwt_write_claims"])

p("A certificate stands for its key",
  "What is passed to l8w8jwt_decode or l8w8jwt_decode_raw as the key counts only for the public key in it: with the RS, PS and ES algorithms a certificate and a PEM key from which the backend reads the same public key give every token the same answer. And a secret that signs a token verifies it. The second part does not hold: a key with the text -----BEGIN CERTIFICATE----- in it is taken for a certificate whatever the algorithm, HS256 to HS512 included; if it is none, no token is accepted, and every one that can be cut into parts is refused with L8W8JWT_KEY_PARSE_FAILURE (unless EdDSA is asked of a build without it), while l8w8jwt_encode signs with that secret.",
  "all tokens, pairs of keys, parameters, algorithms, backends, builds and heaps with memory enough",
  "a test has a few keys and certificates; no test uses a secret that contains the marker",
  ["src/decode.c:l8w8jwt_decode", "src/decode.c:l8w8jwt_verify_signature", "src/encode.c:write_signature"])

p("A private key stands for what is in it",
  "What is passed to l8w8jwt_encode as key and password counts only for the private key in it: with the RS, PS and ES algorithms two pairs of key text and password from which the backend reads the same private key (an encrypted file and a plain one, say) give the same token or the same error for every request; with HS, EdDSA and unknown algorithms the password is not looked at; a key that cannot be read with the password given never signs, and the request, if it is otherwise in order, is refused with L8W8JWT_KEY_PARSE_FAILURE.",
  "all requests, claims, pairs of keys and passwords, algorithms, backends, builds and heaps with memory enough",
  "no test uses a password; a test has a few keys, the claim is about all",
  ["src/encode.c:write_signature", "src/encode.c:l8w8jwt_encode"])

p("What was checked is what is read",
  "After l8w8jwt_decode, l8w8jwt_get_claim on the claims handed out is defined for every key, and what it finds is what was checked: the flag of a requested check of sub, aud, iss or jti is clear exactly if a client that looks the claim up reads the expected text; the flags of exp, nbf, iat and typ are the verdict on the text the client reads, and set if it finds none. And that text is a claim of the payload. The last part does not hold: the first entry whose name starts with the key is checked and read, header parameters before claims, so a token with sub alice in its header and sub mallory in its payload is VALID for alice.",
  "all accepted tokens, keys to look up, parameters, clocks, algorithms, backends, builds and heaps",
  "the tests decode a few tokens and look at the flags; they do not compare them with what a lookup finds for all tokens",
  ["src/decode.c:l8w8jwt_validate_claims", "src/claim.c:l8w8jwt_get_claim", "src/decode.c:l8w8jwt_decode"])

p("Checks can be split over calls",
  "Asking for less never makes a token worse: a call of l8w8jwt_decode or l8w8jwt_decode_raw that asks for some of the checks another call asks for, of the same token with the same key, has an outcome whenever the other has, with the same code, the same claims or texts and the same effect on the memory, and raises no flag that the other does not. And asking in two calls, one check here, another there or in both, comes to the same as asking for all of them in one: the one call has an outcome if the two have, and its flags are those of the two together. So a token is VALID for all the checks exactly if it is for each part of them.",
  "all tokens, divisions of the checks, parameters, output pointers, keys, clocks, algorithms, tokenizers and other backends, builds and heaps, whether memory runs out or not",
  "there are 2^8 sets of checks and 3^8 ways to divide one into two, each for every token; the tests ask for a few",
  ["src/decode.c:l8w8jwt_validate_claims", "src/decode.c:l8w8jwt_decode", "src/decode.c:l8w8jwt_decode_raw"])

with open("/verif/properties.jsonl", "w") as f:
    for x in P: f.write(json.dumps(x) + "\n")
print(len(P))
