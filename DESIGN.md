# Formal model of dskyberg/httpsig in Coq 8.16

Everything is in `rocq/theories`. Model files contain definitions only; `*Facts.v`
files contain lemmas; `Spec*.v` contain small independent specifications (they use the
model's data types, not its functions: structured-field text is given by the relations
of `SpecGrammar.v`, trimming by `SpecTrim.v`, request texts by the framing relation of
`SpecText.v`, acceptance by the conjunctions of `SpecVerify.v`, and so on; the
exceptions are named in their comments); `Prop*.v`
files contain the property theorems and nothing else (each closed by `exact`,
followed by `Print Assumptions`, with `Example`s showing that the hypotheses are met
by concrete non-trivial cases).

## How the code is modelled

* Rust `String`, `&str`, `Vec<u8>` are byte lists (`str := list ascii`).
* A panic is the explicit outcome `Panic` of the `outcome` monad, `Result` is data.
* Rust traits (`RequestLike`, `ClientRequestLike`, `ServerRequestLike`,
  `HttpSignatureSign`, `HttpSignatureVerify`, `HttpDigest`, `KeyProvider`,
  `DigestProvider`) are records of operations; theorems quantify over every record
  that satisfies the laws the trait documents, and the concrete types are shown to
  satisfy those laws.
* `&mut self` becomes state passing. Clock readings (two in `sign`, two in `verify`)
  and the randomness of signature algorithms are arguments.
* Loops of the dependency parsers use fuel equal to the input length; the fuel is
  proved to be enough.

| model file | code |
|---|---|
| `Str.v` | std string functions used by the crate |
| `Base64.v` | `base64` 0.21 STANDARD engine, decoder of `sfv` |
| `Utf8.v` | UTF-8 validity and lossy decoding (std) |
| `Sfv.v` | `sfv` 0.9 types, parser, serializer |
| `Http.v` | `http` 0.2 header names, values, maps, methods; `url` 2.4 records, `query_pairs` |
| `Sha2.v` | SHA-256, SHA-512, HMAC |
| `Algorithm.v` | src/algorithm.rs, src/algorithm/ring.rs, src/algorithm/openssl.rs |
| `Component.v` | src/derived.rs, src/signature_component.rs, src/signature_params.rs, src/errors.rs |
| `Canonicalize.v` | src/signature_input.rs, src/canonicalize.rs |
| `Calendar.v` | `DATE_FORMAT` of src/lib.rs, chrono formatting, clocks |
| `Signing.v` | src/signing.rs |
| `Fail.v` | `http_sign`, `http_verify` of src/algorithm/openssl.rs and `sign` of src/signing.rs with failing library calls |
| `Verifying.v` | src/verifying.rs |
| `Logging.v` | the `info!` lines of src/verifying.rs and src/signature_input.rs |
| `Tracing.v` | the `trace!` lines of src/canonicalize.rs and src/verifying.rs, with `canonicalize`, `sign`, `verify` |
| `Convert.v` | remaining conversions of src/signature_component.rs, src/derived.rs, src/signature_input.rs |
| `Actix.v` | src/actix_web_impls.rs, with repairs |
| `Rsa.v` | RSA in ring 0.16 and openssl, which src/algorithm/ring.rs:84-114 and openssl.rs:78-107 call: from RFC 8017 |
| `Ecdsa.v` | ECDSA in ring 0.16, which src/algorithm/ring.rs:136-220,227 call: from FIPS 186-4 and SEC 1 |
| `EcdsaKey.v` | `EcdsaKeyPair::from_pkcs8` of ring 0.16, which src/algorithm/ring.rs:153-170 call |
| `RsaKey.v` | `RsaKeyPair::from_pkcs8`, `from_der` and `sign` of ring 0.16, which src/algorithm/ring.rs:25-49,84-96 call |
| `Io.v` | httpsig-validator/src/main.rs:310-342 and mock_request.rs:117-181,219-236 on streams that fail; `LineWriter`, `BufWriter` and `read_line` of the standard library |
| `Reqwest.v` | src/reqwest_impls.rs |
| `Mock.v` | httpsig-validator/src/mock_request.rs |
| `UrlParse.v` | the parser of `url` 2.4 for http, https, ws, wss and ftp URLs, called by mock_request.rs |
| `OtherUrl.v` | the parser of `url` 2.4 for all other schemes but file, called by mock_request.rs |
| `HostParse.v` | the parser and the writer of host names of `url` 2.4 (IPv4, IPv6, names), called through the URL parser |
| `CommandLine.v` | httpsig-validator/src/main.rs `Opt`, `Mode` as read by structopt 0.3 / clap 2.34, and `main` from its arguments |
| `KeyFile.v` | key constructors of src/algorithm/ring.rs and openssl.rs; `pem` 1.1, `spki`/`der` 0.7 |
| `Validator.v` | httpsig-validator/src/main.rs |
| `Tests.v` | the repository's own test vectors, run on the model |

## Not modelled

* src/actix_web_impls.rs does not compile against the crate's traits (uses `await` in a
  non-async function, trait items that were removed), so that it has no behaviour of its own.
  `Actix.v` models what it does after the smallest repairs, which its first comment lists.
* URL parsing (`url` crate): a `url` record of components is the input; where the
  code parses a URL, the parser is a function argument. `UrlParse.v` models the parser that
  is used for http, https, ws, wss and ftp, `OtherUrl.v` (C98) for the other schemes, except file, and
  `HostParse.v` the parser of host names, except the IDNA mapping. These two are function arguments.
* RSA and ECDSA primitives: a `crypto` record of arbitrary keyed functions; the wrapping
  (base64, names, choice of scheme) is modelled. `Rsa.v` is an instance with the RSA schemes of
  RFC 8017 (C91), written from the standard, not from the libraries, and `Ecdsa.v` one with ECDSA (C92; the numbers drawn are an argument). Signing is a total function
  there; `Fail.v` adds the panics of both back ends when the library fails (C85). Private key
  parsing inside ring and openssl: records of arbitrary functions, and `EcdsaKey.v` (C93) and `RsaKey.v` (C94) model those of ring (not those of openssl); PEM, SubjectPublicKeyInfo and RSAPublicKey are modelled.
  `Rsa.v` was run (outside the build: a signature takes about a minute) on signatures made by
  the openssl program with test_data/rsa-private.pem, for the four schemes: all are accepted,
  and rejected for other messages (`RsaKey.v` was not run on them; C94_same says that it gives the same tags).
  `EcdsaKey.v` was run the same way (18 minutes) on test_data/ecc-private.pem: it is read, with the public key
  of test_data/ecc-public.pem. The signature in test_data/signed_request.txt is accepted by the
  model of the whole validator.
* The texts of error, help, version and usage messages, arguments that are not UTF-8, and
  file I/O beyond a function from file names to contents.
* The wording of log lines (one constructor per `info!` or `trace!` statement, with the values
  it prints), and the trace lines of the validator (which options and files are used, and the
  request in Debug form), except the one that can panic: `String::from_utf8(..).expect(..)`
  inside `trace!` of `from_reader` (an argument says whether trace logging is on).
* Constant-time behaviour; memory and integer overflow of lengths; the panic of
  `HeaderMap::insert` beyond 24576 distinct names.
* Failing readers and writers, except a reqwest body stream that fails to be read (it is
  then left as it is), the files named on the validator's command line, and its standard
  streams (`Io.v`). A device that fails and later works again is not modelled.

## Wrong programs

Each line of seeded/LOG.jsonl is one edit of a definition of the model, rebuilt outside /verif. `theorems_failed` lists
the theorems whose proofs use, directly or through lemmas (read off Coq's .glob files), a lemma whose proof no longer
checks. Many runs stopped at the first such lemma, so that more theorems may fail. A script can also break for
a statement that stays true; where no statement becomes false the claim says `none`. An edit that broke nothing
either names the theorems tightened for it or says why the edited program does the same.
Two pairs of lines were not made by a plain rebuild. For the edits of `verify_signature_only` with claim C44, the lemmas that
broke first were admitted in the scratch copy to see that the one behind C44_empty_nonce_panics breaks too. The two edits of
`sign_canon` with claim C102 broke no theorem of C102, since these spoke of the specification of sign; C102_what_a_run_signs was
added for them, but the run against it was stopped before it ended.

## Trusted base

* Coq 8.16.1's kernel (and `vm_compute`, part of the kernel).
* No axioms: `Print Assumptions` stands under each property theorem and prints
  "Closed under the global context" for every one of them, without exception.
* `coqchk` also lists the parameters of the module type inside the standard library's
  `Coq.ssr.ssrunder`, which is loaded with `lia`'s helper files; no theorem uses them.
* That the definitions say what the Rust code and its dependencies do. Dependencies
  (`sfv`, `http`, `url`, `base64`, `chrono`, `sha2`, `hmac`) are modelled from their
  documentation and published sources, since the sandbox does not contain them;
  `Tests.v` runs the repository's own vectors (the complete `it_works` signing test
  of src/reqwest_impls.rs, HMAC included) on the model.

## Plan per property

False expectations (marked F) are proved false by a `_refuted` theorem with a concrete
witness, or by a universal negative theorem, and what does hold is proved next to it.

| id | plan |
|---|---|
| C01 | equation for the result of `canonicalize` against a specification of lines and structured-field text (`Spec.v`) |
| C02 | equivalence of the error with the filtered list of non-deriving components |
| C03 | last line of the base is found by splitting at the last LF; serializer injective (from the parser round trip) |
| C04 | equal bases, LF-free values: induction over the lines |
| C05 | F: two witness URLs (percent-encoded LF; absent versus empty), positive version without LF |
| C06 | congruence of `canonicalize` in `derive` restricted to the covered list |
| C07 | parser after serializer, by induction on every level of the grammar, arbitrary continuation text |
| C08 | parser output satisfies the serializer's conditions; re-parse up to numeric equality of decimals |
| C09 | composition of C07, C29 and the request laws; instances MockRequest and reqwest client |
| C10 | accepted + same headers implies equal bases (then C04) or two messages with the same tag |
| C11, C12 | exact characterisation of `verify` returning Ok by a conjunction in `Spec.v` |
| C13 | from C12; interval by convexity of the two comparisons |
| C14 | equation for the parameters attached by `sign`; saturation against integer arithmetic |
| C15 | from C12 |
| C16 | F: universal negative theorem: no request signed by `sign` passes with `validate_date` |
| C17 | from C12 for header components |
| C18 | F: universal negative theorem for every derived component |
| C19 | F: universal negative theorem for every label other than `sig` |
| C20, C21 | from the digest part of `verify` |
| C22 | F: for every accepted request not covering `digest`, body and Digest can be replaced |
| C23 | induction on the operation history against a filter specification |
| C24 | permutation/duplication invariance, alg-value irrelevance with respect to key choice |
| C25, C26 | frame theorems on `sign` through the laws of `set_header`, instances |
| C27 | iff characterisation of `Panic` |
| C28 | F: iff characterisation of `Panic` |
| C29 | base64: decode text = Some bytes iff text = encode bytes |
| C30 | F: any second member makes base64 decoding fail |
| C31 | header-map laws over histories of writes |
| C32 | parse after print, domain of accepted texts |
| C33 | order laws for the printed-form order; the derived order exactly (values of one type), and refutations of its laws |
| C34 | specification by decoded pairs; encode/decode inverse |
| C35 | case analysis on names, all others never derive |
| C36, C37, C39, C44, C46 | F: witnesses plus the positive exact statements |
| C47 | F: HMAC identifies keys exactly by block padding and hashing of long keys |
| C38 | reader after writer, by induction on header lines |
| C40 | calendar inversion against an independent day count, length, legal bytes; past 9999 the text with a signed year |
| C41, C42 | history theorems over sequences of setter calls |
| C43 | equation for the covered list of a successful `sign` |
| C45 | parser only looks at the first member: appended members do not change the result |
| C48 | option handling: exact domain of success of each configuration |
| C49 | F: iff characterisation of the panics of the text reader |
| C50 | lengths of the base64 texts of the modelled signatures, and of the texts accepted |
| C51 | F: names against schemes, for both back ends |
| C52 | composition of C38 and C09 along the validator's pipe; F for labels other than `sig` |
| C53 | the parser model against grammar relations, soundness and completeness by induction |
| C54 | PEM reader and DER reader against relations for files (`SpecKey.v`), both directions |
| C55 | F: exact domain of the loaders (the PEM reader against `SpecPem.v`, both directions); wrong labels, identifiers, contents are accepted |
| C56 | F: the validator's choice of loader per algorithm; PKCS#1 works, SPKI with one algorithm |
| C57 | a history is a list of sign calls; injectivity of the signature base (C04, C37) picks the call; decidability of "was signed" gives the forgery alternative |
| C58 | from the exact acceptance condition of C12 |
| C59 | extensionality of canonicalization, case analysis of verify |
| C60 | after sign nothing is left to add (`settled`), so the second run repeats the first; a later run with another key or validity differs only in the two headers |
| C61 | case analysis of verify against the acceptance condition without digests |
| C62 | UTF-8 relation of `SpecQuery.v`; printed identifiers are ASCII, decoded query values are UTF-8 |
| C63 | F: witness; in general from the outcome relation of C66 |
| C64 | `Sha2.v` against `SpecSha.v` (FIPS 180-4, RFC 2104 as relations); existence and uniqueness of the digest give the equivalence |
| C65 | each automatic header as one step on the values of all components; composed |
| C66 | an outcome relation on the request before the call; it is functional, and `sign` panics only where it is empty |
| C67 | an outcome relation (`SpecFlow.v`) with one case per way through the digest check; equivalence by cases |
| C68 | only `created`, `expires` and `date` of the parsed parameters meet the clock: C12 at two times |
| C69 | C23 under C12; a request consults the keys of the one id it names |
| C70 | C09 with the values of the two request types compared; F: `@authority`, streamed bodies |
| C71 | a relation per mode (`SpecRun.v`) over the relations for framing, options, signature base and acceptance; it is functional and holds of every run |
| C72 | F: the bytes written before a failing write are part of the model's result; the exact condition by cases of the run |
| C73 | F: C10 with the signed request itself as the received one |
| C74 | the exact outcome of C24 and C25 mentions the request only through the values of the components; the request types are compared value by value |
| C75 | F: the parser is proved to meet a relational specification (`SpecUrl.v`, after the URL standard); what is signed is compared with the target as written |
| C76 | parsing the text of a parsed URL gives that URL back, so the text is injective; with C10 for accepted requests |
| C77 | C57 gives the call and the covered values; C76 turns @target-uri into the URL, the uniqueness of the first digest entry and the injectivity of base64 turn the Digest header into the hash of the body |
| C78 | `verify` again with the lines it has written; the second component is `verify`; induction-free case analysis against a relation that lists the reasons in the order of the checks |
| C79 | the host parser against relations for IPv4, IPv6 (RFC 5952 text) and names; round trip by induction over the groups, maximality of the compressed zeros by an invariant of the scan; IDNA is a function with three laws |
| C80 | the argument parser against a relation: settings before and after the mode, each spelled in one of four ways; induction over the settings with the parser's pending option as state; order, spelling and position by permutation of the settings; C52 for the README pipeline |
| C81 | `new`, `with_header`, `with_body` as histories (`SpecBuild.v`); induction over the calls; the host parser's laws exclude the panic; C38 for reading back |
| C82 | the constructors of both back ends over one set of primitives (`KeyFile.v`, `Algorithm.v`); case analysis on constructor and type; the scheme each type really uses from C51 |
| C83 | `with_param` chains as histories (`SpecMake.v`); induction over the calls, then C32, C34 |
| C84 | `sc_new_default` (`Signing.v`) with the request types; what `sign` writes (C66) for an empty list of components; C09 for acceptance; C65 for streamed bodies |
| C85 | `Fail.v`: openssl's `http_sign` and `http_verify` with the calls that can fail, and `sign` with a signer that may panic; case analysis; OpenSSL's rules are a hypothesis (`openssl_rules`, SpecFail.v) |
| C86 | `SpecDraft.v`: the component values and the signature base of draft 17 for requests with a method, URL and headers; compared with `rq_derive`, `mr_derive`, `canonicalize`, `sign` and `verify`; stripping and URL texts by lengths and counts of commas; bases by C04's argument |
| C87 | `SpecManual.v`: the commands and outputs of httpsig-validator/README.md with the header names, algorithm and key left open, test_data/basic_request.txt and test_data/signed_request.txt; compared with `program` and `main` through C71, C72 and C80 |
| C88 | `Tracing.v`: `canonicalize`, `sign` and `verify` once more with the lines at levels trace and info; `SpecTrace.v` says which lines there are (in terms of `to_sign`, `signature_headers` and `signature_base`); the two logs are compared through the round trip (C09, C10) |
| C89 | `Convert.v`: the conversions between components, items, inner lists and lists, and both `Display` impls of src/signature_input.rs as written, over the general printers for lists and dictionaries; the texts are those of the grammar in `Spec.v`, and equal to the ones `Canonicalize.v` uses |
| C90 | `Actix.v`: src/actix_web_impls.rs with the smallest edits that make it compile (listed at the head of the file); values, laws of a server, and the digest of the payload; verdicts compared with MockRequest's; requests signed with reqwest and covering fields, method, path and query verify, others do not |
| C91 | `Rsa.v`: RSASSA-PKCS1-v1_5 and RSASSA-PSS on numbers, and ring's reading of public keys, as one instance of `crypto`; `SpecRsa.v` written from RFC 8017 (any number of primes); Fermat and the Chinese remainder theorem in `RsaNum.v`; equivalence of the block codings with their descriptions (byte by byte for MGF1 and the masks); then C09, C10, C55, C82 for RSA keys |
| C92 | `Ecdsa.v`: ECDSA with affine points, DER signatures and uncompressed public keys, as one instance of `crypto`; `SpecEcdsa.v` written from FIPS 186-4 and SEC 1 by chords and tangents; that the points of a nonsingular curve are a group is proved (`EcdsaLaw.v`), and that P-256 has prime parameters and its generator the stated order, by certificates checked in Coq (`EcdsaPrime.v`, `EcdsaP256.v`); then C09, C10, C82 for ECDSA keys |
| C93 | `EcdsaKey.v`: how ring reads an ECDSA private key (its DER reader, `unwrap_key`, `key_pair_from_pkcs8`, the check of the public key); `SpecEcdsaKey.v` written from RFC 5208 and RFC 5915; the files read are exactly those, and C92 from the bytes of the two files on |
| C94 | `RsaKey.v`: how ring reads an RSA private key and signs with its factors (`from_der_reader`, `private_exponentiate` with the check of the result); `SpecRsaKey.v` written from RFC 8017 A.1.2 and RFC 5208; the files read are exactly those, the result is right modulo both factors, and C91 from the bytes of the two files on |
| C95 | no new model: the validator of C87 in a world whose RSA is that of `Rsa.v` and `RsaKey.v`, so that what its two commands do is stated of the bytes of the files and of RFC 8017 only (`SpecRsaRun.v`), by C91, C94 and the theorems about the validator |
| C96 | `Io.v`: the request reader on an input that fails, and `Stdout` of the standard library (a line buffer of 1024 bytes) on a device that takes a number of bytes; an invariant of the buffer (no line end, everything written is on the device or in it, or the device is full) through every write of the validator |
| C97 | every beginning of the output of sign, read again by the request reader (`SpecCut.v`): a case analysis on where the cut is (in the header lines, at the empty line, in the body), with C09/C95-style facts that the two signature headers come last and that a cut in them leaves nothing to accept |
| C98 | `OtherUrl.v` (the parser of the remaining schemes, in place of the function argument) against `SpecOther.v`, by the methods of C75; the forms of targets by computing the parser on them; C76 again without its restriction to five schemes, from a proof that the text of each parsed URL is read as that URL |
| C99 | the framing relation of C38 on a text and its extensions, by induction over the header lines; the verdict from C67 and C71 |
| C100 | C10 for the program of C71: the request that verify reads is arbitrary, the configurations are those that the options give (C48) |
| C101 | C57 for the program of C71: each run of sign is an event of the history, by the relation of C48 between options and configurations; no line feeds in URLs from C98 |
| C102 | the outputs of canonicalize by C71, the texts signed by C48 and C101; the last parameter of one is alg, of the other keyid, and a quoted value ends where it seems to; the lines before it are the same by C03's specification |
| C103 | the list on the last line reads back as the components and parameters of canonicalize (C07's round trip), so verify builds the same text; the verdict by C71. An empty nonce makes the list unreadable, so verify panics (PropNonce.v, also for C44) |

## Findings

Where a property is false of the code, the theorem named `_refuted` (or a universal
negative theorem) in the manifest shows it. The main ones: `verify` accepts no label but
`sig` (C19); the default date check rejects everything `sign` produces (C16); a required
derived component rejects every request (C18); `verify` panics on a Signature-Input whose
items are not components (C28, C53); a Digest header that is not covered is accepted with
any body (C22); two signatures in one message are rejected (C30); `@query-params` values
with LF make signature bases collide (C05); key loaders do not look at the kind of key, and
the validator's verify command with a SubjectPublicKeyInfo file rejects everything unless
the algorithm is rsa-v1_5-sha256 (C55, C56); components may be listed twice (C63); what
reqwest signs with `@authority` covered no MockRequest accepts (C70); a failing sign command may leave a truncated
request on its output (C72); a request whose earlier signature is covered is rejected
because `sign` replaces that signature (C73); the path that is signed is not the one in the
request line when that has dot segments or the Host header contains a slash (C75); a
Signature header without "=" is logged twice, and one log line can never be written
(C78); `-c -5` and `-d "host date" sign` are usage errors (C80); the Host header of
a MockRequest made from a URL has no port (C81); PSS signatures of
one back end do not verify with the other (C82; C91 says for which messages); ECDSA signatures are
in DER, never in the 64 bytes the draft asks for, and there are two texts for one message (C92); a private
key without its (optional) public key, or in the form "EC PRIVATE KEY", is not read (C93); an
RSA key file that is read may make the first signing call panic ("infallible"), and a file labelled for PSS is
not read for the PSS types (C94); a signed request that lost all or part of its body is accepted if it has no Digest header, whatever its
Content-Length says (C97); without a Digest header, text after the body is accepted as more body, and after a
request without a body, as header lines that replace those not covered, such as Host (C99); the target of a CONNECT request is read as a URL whose scheme is the host name, or panics if the host is an address
with a port, and `OPTIONS *` puts the asterisk behind the host name, or panics if the Host header has a port (C98); the validator can
report success although the end of its output was not written, because the last line is only written when the
process ends and failures are then ignored (C96); the
README's example covers no part of the request, so all requests get the same signature, and it
is accepted on every other request (C84); openssl
signers can be made of keys with which every signing call panics (C85); several
derived components, repeated header lines and nonces do not have the form that the draft gives
them, and the parameters that it makes optional are required (C86); the signing
command in the README of the validator fails on the README's own request, its verification command
fails on test_data/signed_request.txt (a line feed at the end of the file is not in the digest), and its key command
makes files that cannot be loaded (C87); with the actix-web
adapter, requests that cover `@request-target`, `@target-uri`, `@authority`, `@scheme` or
`@query-params` do not verify, nor does an empty body with its right Digest (C90); what the
validator's canonicalize command prints is never the text that its sign command signs (C102).
