# l8w8jwt in Rocq: design

Status per property: MANIFEST.json. Wrong programs tried against the theorems: seeded/LOG.jsonl
(made with tools/mutate.py). properties.jsonl and MANIFEST.json are written by tools/mkprops.py and
tools/mkmanifest.py.

## Approach

The C code is transcribed function by function into an executable Gallina model, in a small
monad `M` whose outcomes are either a value together with a new `world`, or **undefined
behaviour** (a distinct outcome with a reason: out-of-bounds read/write, null dereference,
signed overflow, bad free, negative table index, use of an uninitialised value, ...). The `world`
carries

* an allocation oracle (`nat -> bool`: does the k-th malloc/calloc/chillbuff_init succeed?),
* a growth oracle (does the k-th `chillbuff_push_back` succeed?),
* the content of uninitialised malloc memory (an arbitrary function),
* the set of live heap blocks (so double frees are UB and leaks are visible).

Theorems quantify over all worlds, hence over every schedule of allocation failures, every state of
the heap and every content of fresh memory.

A pointer is `Null` or `Ptr block mem` where `mem` is the list of bytes from the pointer to the
end of its object; every read/write is bounds-checked against it. That the object still exists at
that moment is not part of the value; it is C83, about the accesses in Trace.v. A write cursor (`*pos++ = c`)
is a zipper; running off the end is UB. `size_t` arithmetic is reduced modulo `2^w` (`w` is a
platform parameter) where a property depends on it.

A property that holds is a theorem `Cnn_...`. A property that is false of the code has a theorem
`Cnn_..._refuted` (a witness, computed by the model) and one or more `Cnn_..._partial` theorems
saying exactly what holds instead. Each theorem is followed by `Print Assumptions` and by an
`Example` that meets its hypotheses (for C05, C14, C33, C34, C39, C58 and C62 in PropCases.v).

## Trusted base

* Coq 8.16.1's kernel (and `vm_compute`, used for witnesses and for sweeps over all 256 bytes).
* `Print Assumptions` says *Closed under the global context* for every theorem in MANIFEST.json: no
  axiom, of ours or of the standard library, is used. (Loading the standard library's ssreflect
  files brings seven axioms `Coq.ssr.ssrunder.Under_rel.*` into the list of loaded modules; no
  theorem uses them.)
* The specifications: SpecB64.v (RFC 4648 as regrouping of bits), SpecJson.v (the RFC 8259 grammar
  with the denotation of strings), SpecJwa.v (RFC 7518/8037/8812: which primitive, hash, curve and
  label each algorithm id means), SpecEnc.v (the members a caller asks for), and the small
  definitions that precede the theorems in the Prop*.v files.
* That the model says what the C code does. Each definition cites the lines it transcribes.

### What is modelled

All of /repo/src (base64.c, claim.c, decode.c, encode.c, util.c, version.c) and the constants
of /repo/include, in both build variants of `L8W8JWT_SMALL_STACK` and `L8W8JWT_ENABLE_EDDSA`, for
signed and unsigned `char` and any `size_t` width. `L8W8JWT_MAX_KEY_SIZE` has its default 8192.
Of /repo/examples the programs as clients of the library (Examples.v); the keys and tokens they
hard-code are arguments, so theorems hold whatever a reader puts there. Of /repo/tests/tests.c the tests that issue tokens
and decode them (Tests.v), and its tests on arguments, Base64 and claims (ArgTests.v, TestRaw.v).

### What is not modelled

* Of /repo/tests: the later rounds of the wrong-algorithm test (the first one is undefined), and acutest; keys are arguments. The printing of the example programs other than `%s`.
* mbedtls, ed25519, checknum: not in /repo (empty submodules). They are fields of a record
  `env` of arbitrary functions; theorems quantify over every `env` and state what they assume
  of one. These are functions, so the random numbers of ECDSA and RSASSA-PSS are part of the `env`:
  theorems that compare two calls (C54, C99, C102) compare them for the same random numbers.
  Key contexts are abstract handles; what the code does with the context objects
  (init, parse, use, free, seeding) is a trace of events in Context.v.
* jsmn: also absent. Where a theorem needs the tokenizer (`uses_jsmn`), it is Jsmn.v, a model of
  the published jsmn 1.1.0 in the configuration of src/decode.c:21-27 (non-strict, no parent links).
  Theorems without `uses_jsmn` hold for every tokenizer.
* chillbuff: absent. A growable array; a push either appends all or changes nothing. Any push may
  fail, also one that would not have to grow. Whether a failing `chillbuff_init` leaves a zeroed
  struct is the platform parameter `p_cb_init_clears`.
* libc: `strlen`, `strchr`, `strncmp`, `strncpy`, `strstr`, `strtoll`, `memcmp`, `tolower`,
  `snprintf("%llu")` are modelled in Base.v/Util.v/Encode.v after ISO C in the "C" locale
  (other locales: Locale.v);
  `time` is a field of `env`, and time_t a signed integer of 64 bits (other types: TimeT.v).
* Aliasing between the caller's objects (a parameter struct that points into an output buffer)
  and concurrent modification. Parameters are a snapshot. (Threads that do not modify each other's objects: SpecThreads.v.)
* Timing, but for the byte pairs examined when MACs are compared (Timing.v, under the assumption that memcmp goes
  from the first byte on and stops at the first difference, which ISO C leaves open). Wiping is an event of Context.v; in the other
  files `zeroize` is only checked for validity of its argument.
* JSON texts of 2^31 bytes and more (jsmn's `int` offsets): the model yields UB for them.
* Unsigned wrap of `in_length + r` in the base64 decoder, which needs an object of 2^w - 2 bytes.

## Files (rocq/theories)

| file | content |
|---|---|
| Base.v | bytes, UB monad, world, heap, libc string functions, return codes |
| Base64.v, Util.v, Claim.v, Encode.v, Decode.v | src/base64.c; src/util.c and version.c; src/claim.c; src/encode.c; src/decode.c |
| Context.v, SpecContext.v | signing and verification once more, with the operations on crypto contexts and key copies as events; the rules for them |
| Trace.v, TraceProofs.v, TraceRuns.v | all allocating and releasing functions once more, with heap events (source, accesses, way of release, content); erasure and a program logic for the events; a triple for each function |
| Timing.v | l8w8jwt_decode down to the comparison of MACs once more, counting the byte pairs compared |
| SpecLife.v, LifeProofs.v, LifeRuns.v | blocks are used only while held: specification, rules, a triple for each function |
| Examples.v | the client programs of /repo/examples |
| Sha2.v | SHA-2 and HMAC from their standards (specification; nothing of it is in /repo) |
| Tests.v, TestProofs.v, TestVerdict.v, TestBench.v | the tests of /repo/tests/tests.c that issue tokens; lemmas; a backend and a keyring they pass with |
| ArgTests.v | the other tests of tests.c, as programs |
| TestRaw.v | the end of the RS256 test and the fixed tokens that three HMAC tests start with |
| Jsmn.v, Env.v | the tokenizer; the record of external functions |
| JsmnCost.v | the tokenizer once more, with toksuper and counting the iterations of its loops |
| SpecThreads.v | threads, schedules, addresses, and that nobody is disturbed |
| Locale.v | tolower, strtoll and the functions that call them, with the locale as an argument |
| TimeT.v | the functions that compute with time_t, with its type as an argument |
| SpecB64.v, SpecJson.v, SpecJwa.v, SpecEnc.v | specifications, independent of the code's helpers |
| BaseProofs, HeapProofs, Base64EncProofs, Base64EncApi, Base64DecProofs, Base64Api, UtilProofs, ClaimProofs, UnescapeProofs, EncodeProofs, SignProofs, EncodeTotal | lemmas about the model up to encode |
| JsonProofs, JsonUnique | lemmas about the JSON grammar: what encode writes is JSON; a JSON text can be read in one way only |
| JsmnProofs, Nesting, JsmnJson, JsmnSize, Lax, ReadProofs, ParseProofs, OverRead, Walk, Unclosed | the tokenizer and claim parsing: on every text, on JSON texts, at the end of the token array, on unclosed objects |
| DecodeProofs, DecodeInv, DecodeTotal, DecodeOk, ValidateProofs, SimProofs, Exact, Complete, Strain | decode: ownership, inversion, definedness, success, claim checks, two-run simulation, want of memory |
| EncCodeProofs, EncComplete, EncRun, EncSign, EncStrain | encode: its codes; the specification of all its outcomes; that the code meets it; want of memory |
| Prop*.v | the property theorems with Print Assumptions and examples |

## Per property

| id | what is modelled | how proved |
|---|---|---|
| C01 | both base64 functions at buffer level | encoder = bit-level spec, decoder = group decoding; induction by threes |
| C02 | encoder | equality with the bit-regrouping spec, induction by threes |
| C03 | encoder with zipper cursor over an allocation of exactly olen bytes | arithmetic bound on writes |
| C04 | size computation modulo 2^w | arithmetic over mod/div equations |
| C05 | `int line_length` with overflow = UB | refuted by a 3*2^29-byte input (symbolic); exact iff |
| C06 | decoder with zipper | invariant: writes <= 3*floor(count/4)+3 |
| C07 | decoder | loop invariant |
| C08 | decoder | refuted; the result depends only on the alphabet characters |
| C09 | decoder keeps the bytes behind the cursor | refuted by non-canonical text; proved for canonical text |
| C10 | escape table, signed/unsigned char, write_claims | RFC 8259 string grammar, induction |
| C11 | header/payload writer | RFC 8259 object grammar; comma bug refuted; JSON iff the comma condition holds |
| C12 | escape and unescape | induction; exact iff (no \u escapes), refuted in general |
| C13 | unescape into zipper | length bound |
| C14 | encode | composition of C02 facts |
| C15, C16, C17 | encode + env | case analysis on alg against the table of SpecJwa |
| C18 | encode, decode, jsmn | composition; grammar induction for the tokenizer |
| C19, C22 | decode | case analysis against a relational spec of "verified"; refuted for odd signature lengths |
| C20 | verify_signature | equal inputs outside the header give equal verdicts |
| C21 | decode | refuted; exactly the ids outside 0..13 skip verification |
| C23 | decode | definedness under explicit conditions; each excluded case exhibited as UB |
| C24-C28 | validate_claims | against a spec over claim lists; prefix lookup refutes C24-C26, C27 in part |
| C29 | decode, decode_raw | case analysis on every path |
| C30 | decode* | relational case analysis |
| C31 | parse_claims + jsmn | induction over the JSON grammar |
| C32 | decode with heap | ownership invariant for all schedules; leaks refuted, one for a whole family of tokens |
| C33 | encode with heap | ownership invariant for all schedules |
| C34 | encode with schedules | refuted; all-or-nothing when claim buffers are available |
| C35 | get_claim | refuted; exact prefix characterisation |
| C36 | strncmpic | induction; n = 0 / empty strings refuted |
| C37 | hexstr2bin | induction; rejection of other characters refuted |
| C38 | validators, initialisers | case analysis, all entry points |
| C39 | key buffers | refuted at 8192, proved below |
| C40 | HMAC key normalisation | equality of runs |
| C41 | small_stack flag | refuted by witness |
| C42 | decimal printer, strtoll | induction on digits; negative values refuted |
| C43 | decode_segments | refuted (extra dots); at-least-two-dots proved |
| C44 | mpi read/write | induction on big-endian digits |
| C45 | parse_claims + jsmn | bracket-matching invariant of the tokenizer; refuted (blank payload, non-JSON) |
| C46 | sequences of API calls | invariant by induction over the sequence |
| C47 | free_claims | ownership invariant |
| C48 | version.c | computation |
| C49 | encode | definedness under explicit conditions; each shown necessary |
| C50 | decode + jsmn | composition of C31, C19, C23; refuted beyond the token limit |
| C51 | encode, then decode with checks | C18 + validate_claims on the members written |
| C52 | parse_claims + jsmn on JSON of any size | grammar induction with token counts (JsmnSize); the over-read proved for a family of tokens |
| C53 | decode | C31 + C19 + C24-C28 composed, on the JSON of the token |
| C54 | all entry points | two-run simulation over worlds (SimProofs) |
| C55 | parse_claims | two-run argument over the contents of unused tokens |
| C56 | all entry points, no precondition | write/free/terminate outcomes excluded by induction over every loop |
| C57 | validate_claims in decode | two runs at two times; monotonicity |
| C58 | decode_segments | two runs on objects that agree up to the length |
| C59 | base64 decoder inside decode | equality of runs on re-spelled signatures |
| C60 | strtoll inside decode | against the rational value of a JSON number |
| C61 | encode | unambiguity of the JSON grammar (JsonUnique) + injectivity of base64 and escaping |
| C63, C64 | encode, decode with a trace of context operations | erasing the trace gives the other model; Hoare-style symbolic execution of every path over a ledger |
| C65 | decode functions + jsmn on any text | tokens lie in order, disjoint or nested (invariant of the tokenizer, Nesting); potential argument over the claims loop |
| C62 | verify_signature | inversion; independence from the key facts mbedtls offers |
| C66 | the seed mixing of examples/eddsa/keygen.c | closed form of the loop; gcd argument modulo 256 |
| C67 | the programs of examples/*/encode.c and decode.c (Examples.v) | composition of C33, C49, C23, C32 with what main does in between; witnesses by computation |
| C68 | the same programs, encoder and decoder one after the other | C51 instantiated, verdict bit by bit; C19 for the signature; witnesses by computation |
| C69 | the three decode functions with the heap's refusals (`lacks_memory`: an allocation made by the call failed) | each code traced back to a cause stated on the caller's text and key (`dec_cause`); failures of allocations followed through every exit path (CodeProofs.v) |
| C70 | l8w8jwt_encode with the heap's refusals | each code traced back to a cause stated on the request and the backend (`enc_cause`, `sign_cause`); success with too little memory pinned down as a missing group of claims (EncCodeProofs.v) |
| C71 | decode, then encode with the claims handed out, then decode | C31 + C18/C11 composed; a decoded string without DEL is in the invertible fragment of escaping; JSON texts can be read in one way only (JsonUnique) |
| C72 | l8w8jwt_encode, every outcome | allocations counted compositionally (`takes`); length of what each append can add, summed over the claims; used in C68 to bound the examples' tokens |
| C73 | the API functions that allocate, every outcome | a congruence over the monad (`local`, LocalProofs.v): with the same answers to the requests made, the same run; corollaries with the bounds of C65 and C72; used to weaken the hypotheses on memory of earlier theorems to the requests actually made (`appended`, `allocated`) |
| C74 | decode and decode_raw on any text | a relational account of the walk over jsmn's tokens (`walk`, `has_fate`, Walk.v), of verification (`refused`, `misused`) and of the typ comparison (`trips`, Exact.v), each proved deterministic and exact; composed to an equivalence |
| C75 | the three decoding functions on any text | relations `cut`, `check`, `reading`, `failed`, `decoding` (Complete.v) giving the outcome of every call, each proved functional and met by the code; validity read off |
| C76 | l8w8jwt_encode on any parameters | relations `header`, `registered`, `payload`, `based`, `signing`, `encoding` (EncComplete.v) giving the outcome of every call, each proved functional and met by the code (EncRun.v, EncSign.v) |
| C77 | encode by any issuers, then decode of any text | C19 (what the signature covers), C31 on the text of the issued token, C24-C28 on the claims; induction over the log |
| C78 | decode, decode_raw, any world | the stages of C75 redone without assuming that requests are granted (Strain.v); segments by C73's locality, claims as a subsequence; comparison of the flags of a subsequence |
| C79 | encode, any world | the stages of C76 redone without assuming that requests are granted (EncStrain.v), with flags for what may be refused; C73 to confine these to the call; with both flags off the relation of C76 |
| C80 | the result records of the API functions | inversion of every return path, for any world; what each raw pointer receives follows decode_segments (PropOutputs.v); two documented points refuted |
| C81 | Trace.v: every function that allocates or releases, with events | erasure to the model; Hoare rules over traces (TraceProofs.v), one triple per function (TraceRuns.v); exact for successful calls; refuted in builds with replaced allocators |
| C82 | the contents of released blocks in Trace.v | the same triples with a condition on contents; refuted for the decoded parts |
| C83 | accesses in Trace.v (`Used`), SpecLife.v: a block is held between `Got` and `Gone` | rules that keep a list of distinct held blocks (LifeProofs.v), one triple per function (LifeRuns.v), any set of further blocks as a frame |
| C84 | two runs of encode, decode, decode_raw with different keys, requests, backends and heaps | parsing does not depend on the buffer or the crypto part of the backend (PropFlow.v), simulation between heaps (SimProofs.v), flags from validate_claims_inv |
| C85 | Timing.v: decoding with the number of byte pairs the memcmp of decode.c:577 examines; attackers as trees of questions | erasure to the model; the time is the common prefix plus one; the forger's game by induction on the bytes, each answer by C75; the bound without times by induction on the attacker with a shrinking set of possible MACs; refuted |
| C86 | encode, decode, jsmn | runs of members with commas missing after strings or doubled, and what the tokenizer makes of them (Lax.v); then as C18 |
| C87 | encode, decode, tests.c | tests as data and a runner (Tests.v); C76 for issuing, C51 and C75 for the verdict, then a case analysis over the suite; the tests on arguments are run symbolically on an arbitrary heap (PropArgTests.v); the end of the RS256 test and the fixed tokens of the HMAC tests use the completeness of decoding (PropTestRaw.v, PropTestFixed.v) |
| C88 | write_signature, verify_signature, encode, decode | RFC 2104 over any hash (Sha2.v, also SHA-2 itself); C15 and C22 for the call made, C75 for the answer under another key |
| C89 | decode, validate_claims, parse_claims, get_claim | relation `alike` between the member lists of two tokens; both verdicts from C53, compared flag by flag (PropRules.v); the rule on crit is false, witness |
| C90 | decode, validate_claims, get_claim | the identity flag from C53, with the first aud member an array; the rule on lists is false, witness |
| C91 | decode, validate_claims, get_claim | as C90, for the four identity claims; the rule on duplicates is false, witness |
| C92 | decode, validate_claims, get_claim, strtoll | the date flag from C53 with `reads_as` (C60) of the value text; the rule on kinds is false, witness |
| C93 | jsmn_parse with toksuper and a count of loop iterations (JsmnCost.v) | erasure to Jsmn.v; upper bounds by induction over the run, lower bound by induction over the JSON grammar (PropCost.v); linear is false |
| C94 | l8w8jwt_encode, l8w8jwt_decode | UTF-8 as concatenated encodings of code points (RFC 3629); an ASCII byte splits a text; issuing from the exact specification (C76), reading from C31 (PropUtf8.v); that it is checked is false |
| C95 | l8w8jwt_decode with the locale as an argument (Locale.v) | equality with Decode.v by stepping through both; the demands of ISO C on locales are the hypothesis `conforms` (PropLocale.v); independence is false |
| C96 | several threads, each with a trace of Trace.v; schedules; addresses, which the allocator may reuse (SpecThreads.v) | invariant over schedules: blocks held at the same address are the same or shared from the start; every job is in life (LifeRuns.v) and releases no block that was there before (`holds` of TraceProofs.v, started with the block as already obtained) |
| C97 | validate_claims, decode and decode_raw with the type of time_t as an argument (TimeT.v) | as C95: equality with Decode.v by stepping through both, the dates by what strtoll reads; independence is false (PropTimeT.v) |
| C98 | decode at time -1 | from C25 and C26; the claim itself is false (PropTimeT.v) |
| C99 | encode and the three decoding functions in two builds | from C75 and C76: the two relations that say what a call comes to are compared step by step; the claim without exceptions is false (PropBuilds.v) |
| C100 | encode | from C11, by uniqueness of JSON parses (JsonUnique.v); the claim without conditions is false (PropUnique.v) |
| C101 | decode, encode | from C75: checking depends on the key only through the public key read from it; a marked HMAC secret refutes the second part (PropCert.v) |
| C102 | encode | from C76: signing depends on key and password only through the private key read from them (PropSecret.v) |
| C103 | decode, get_claim | from C24-C27 and C35, over the claims handed out; a header parameter in place of a claim refutes the last part (PropRead.v) |
| C104 | decode, decode_raw | l8w8jwt_validate_claims taken apart into eight independent answers, carried through the common stretch of both functions (PropSplit.v) |

## What the proofs found in the code

Each is a `_refuted` theorem (or named otherwise) with a witness.

* Base64: foreign characters skipped (C08), so signatures can be re-spelled (C59); the url encoder's
  line counter overflows at 1.5 GiB (C05); decoded buffers not always NUL-terminated at their
  length (C09).
* Encoding: a comma too few or too many when a registered claim is given with length 0 next to
  additional claims (C11); control characters are written as \u escapes that decoding does not
  undo (C12); claims dropped silently when memory is short (C34); non-ASCII text indexes a table
  with a negative number where char is signed (C10, C36); small-stack builds wipe through NULL
  when memory is short (C41); an EdDSA key need not be hexadecimal (C17, C37).
* Verification: an unknown algorithm id skips it (C21); for HS, PS and EdDSA a signature shorter than
  expected is read past its end and a longer one cut (C19, C22, C23); a PS id with an EC key, or an
  ES id with an RSA key, dereferences NULL (C23); size, curve and (RS) kind of the key are never
  looked at (C62); a key of 8192 bytes without NUL is over-read (C39).
* Claims: lookup is by prefix (C35), so `expires` is taken for `exp` (C24-C26); header members shadow
  payload members in validation (C53); exponents and fractions of dates are ignored (C60); typ is
  compared up to a prefix (C27); blank payloads and non-JSON are accepted (C45).
* Claim parsing: 64 or more JSON tokens with a nested last member read past the token array, whatever
  the signature (C52), and 63 use an uninitialised one (C55); the token array leaks for unclosed
  objects of more than 64 tokens (C32); a failing push leaks a claim (C32).
* Token text: a dot behind the given length makes a length wrap around and the call read out of
  bounds (C58); a registered claim and an additional claim of the same name cannot be told apart,
  nor raw values that contain commas (C61).
* Re-encoding decoded claims: `\u` escapes change their meaning, DEL does not come back (C71).
* Return codes: running out of memory while copying claims is reported as an invalid token (C69),
  while encoding a signature as a base64 failure, while writing claims as success (C70).
* Memory: builds with replaced malloc or calloc hand the application's blocks to libc's free (C81);
  the decoded payload is released unwiped, although the claims copied from it are wiped (C82).
* Examples: supplying extra entropy to the key generator destroys entropy of the seed (C66); the
  encoders ignore the return code and print an uninitialised pointer when encoding fails, the RS256
  decoder prints NULL for a token that does not decode, the HS256 decoder leaks the claims (C67) and
  does not check signatures (algorithm -1), the RS512 decoder demands an nbf claim its encoder never
  sets (C68).
