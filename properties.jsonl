{"id": "C01", "title": "Signature base layout", "statement": "When canonicalize succeeds, the returned bytes are exactly one line per configured component, in the configured order, each line being the component identifier (a quoted lower-case field name, or the structured-field text of a derived component), a colon, a space and the value the request derives for it, followed by a last line `\"@signature-params\": ` with the structured-field text of the component list and its parameters; lines are separated by single LF bytes and there is no trailing LF.", "quantifier": "every request (any RequestLike implementation), every CanonicalizeConfig", "why_tests_cant": "the set of component lists, parameter sets and derived values is unbounded; tests pin a handful of literals", "anchors": ["src/canonicalize.rs: CanonicalizeExt::canonicalize", "src/signature_input.rs: ComponentList"]}
{"id": "C02", "title": "Missing components are reported exactly", "statement": "canonicalize returns MissingComponents(l) exactly when some configured component has no value on the request, and l is then the list of all such components, in configured order with multiplicity; otherwise it does not return an error.", "quantifier": "every request and every component list", "why_tests_cant": "'exactly' ranges over every subset and order of present/absent components", "anchors": ["src/canonicalize.rs: canonicalize (partition_map)", "src/errors.rs: Error::MissingComponents"]}
{"id": "C03", "title": "The signature base binds the covered component list and the parameters", "statement": "If two requests canonicalize (under two configurations with representable contents) to the same bytes, the two configurations list the same components in the same order and carry the same signature parameters with the same values in the same order.", "quantifier": "every pair of requests and configurations", "why_tests_cant": "injectivity quantifies over pairs of unbounded inputs", "anchors": ["src/canonicalize.rs: canonicalize", "src/signature_input.rs: ComponentList::new"]}
{"id": "C04", "title": "The signature base binds the covered values", "statement": "If two requests canonicalize to the same bytes and no derived value contains a line feed, then every covered component has the same value on both requests.", "quantifier": "every pair of requests and configurations whose derived values are LF-free", "why_tests_cant": "an ambiguity in the layout could be triggered by any value; only a proof excludes all of them", "anchors": ["src/canonicalize.rs: canonicalize"]}
{"id": "C05", "title": "Query parameter values are bound unambiguously", "statement": "Two requests whose named query parameter differs (different multiset or values, or present versus absent) have different signature bases when @query-params for that name is covered.", "quantifier": "every pair of URLs and every parameter name", "why_tests_cant": "needs all encodings of all values; the defect needs a percent-encoded line feed or an absent parameter", "anchors": ["src/derived.rs: DerivedComponent::derive (AT_QUERY_PARAMS)"]}
{"id": "C06", "title": "Only covered components influence the signature base", "statement": "If two requests derive the same value for each configured component, canonicalize gives the same result on both, whatever else differs between them.", "quantifier": "every pair of requests agreeing on the covered components", "why_tests_cant": "non-interference is a statement about all pairs of requests", "anchors": ["src/canonicalize.rs: canonicalize"]}
{"id": "C07", "title": "Signature-Input print/parse round trip", "statement": "Printing the Signature-Input value of a configuration (label, components, parameters) and parsing it with CanonicalizeConfig::from_signature_input gives back the same label, components and parameters, in the same order.", "quantifier": "every configuration whose label, names, keys and values are representable as structured fields", "why_tests_cant": "unbounded nesting of strings with escapes, integers, tokens, byte sequences; tests check one literal", "anchors": ["src/canonicalize.rs: from_signature_input, to_signature_input", "src/signature_input.rs: TryFrom<&str>, Display"]}
{"id": "C08", "title": "Parsed Signature-Input values re-serialize", "statement": "Any configuration obtained from from_signature_input can be turned into a signature base and printed again without a serialization failure, and the printed text parses to the same configuration again.", "quantifier": "every byte string accepted by from_signature_input", "why_tests_cant": "quantifies over every accepted header text, including non-canonical spacing, duplicate keys and odd numbers", "anchors": ["src/canonicalize.rs: from_signature_input", "src/signature_input.rs", "src/signature_component.rs: From<Item>"]}
{"id": "C09", "title": "Sign then verify succeeds", "statement": "A request signed in place with label \"sig\" by HMAC-SHA256/512 (or any algorithm pair whose verifier accepts its signer's output) is accepted by verify with a key provider that returns the matching key for the key id, as long as the required headers are among the signed ones, the digest header (if checked) is right, created/expires hold at the verifier's clock and the date-parameter check is disabled; the key id reported is the signer's.", "quantifier": "every request, component list, key, key id, nonce, time, body, digest algorithm", "why_tests_cant": "end-to-end composition over all component lists and values, including quoting and escaping in key ids", "anchors": ["src/signing.rs: SigningExt::sign", "src/verifying.rs: VerifyingExt::verify"]}
{"id": "C10", "title": "Tampering with a covered component is detected", "statement": "If a request carrying the Signature and Signature-Input headers produced by sign is accepted under the HMAC key used to sign, then every covered component has the value it had when signed, or else the two signature bases are an explicit HMAC collision (two different messages with the same tag).", "quantifier": "every signed request, every modified request keeping the two headers, LF-free derived values", "why_tests_cant": "all modifications of all requests", "anchors": ["src/verifying.rs: verify_signature_only", "src/algorithm.rs: hmac_signature!"]}
{"id": "C11", "title": "An accepted request was validated by a key of the named key id", "statement": "verify succeeds only if the Signature-Input header parses, names the same label as the Signature header, has string keyid and alg parameters, and one of the keys the provider returns for that keyid accepts the signature text over the signature base computed from the request and that header; the reported key id is that keyid.", "quantifier": "every request, configuration and clock reading", "why_tests_cant": "soundness of an accept decision ranges over all attacker-chosen requests", "anchors": ["src/verifying.rs: verify_signature_only, verify"]}
{"id": "C12", "title": "verify accepts exactly the documented conditions", "statement": "verify returns Ok exactly when the conjunction of its checks holds (headers present and parsable, label match, keyid, alg, created not in the future, expires not in the past, all components derivable, some key accepts, required components listed, date parameter within the leeway if enabled, digest rule).", "quantifier": "every request, configuration and clock reading", "why_tests_cant": "completeness and soundness together need both directions over all inputs", "anchors": ["src/verifying.rs: verify_signature_only, verify_except_digest, verify"]}
{"id": "C13", "title": "Acceptance respects created and expires", "statement": "A request whose Signature-Input carries an integer created later than the verifier's clock or an integer expires earlier than it is never accepted, and (other things equal and the date check disabled) the set of clock values at which a request is accepted is an interval.", "quantifier": "every request, configuration and pair/triple of clock readings", "why_tests_cant": "boundary and ordering over all integers", "anchors": ["src/verifying.rs: verify_signature_only", "src/signature_params.rs: get_created, get_expires"]}
{"id": "C14", "title": "sign stamps only valid times", "statement": "When sign succeeds, the Signature-Input header carries created exactly when configured and with the configured or current time, created is not after and expires not before the current time; an absolute created in the future or expires in the past gives the dedicated error; the relative expiry is now+offset saturated to the 64-bit range.", "quantifier": "every configuration and clock value in the 64-bit range", "why_tests_cant": "saturation and comparison boundaries over all i64 pairs", "anchors": ["src/signing.rs: SignatureCreated::get, SignatureExpires::get, sign"]}
{"id": "C15", "title": "The date parameter check bounds the skew", "statement": "With validate_date enabled, a request is accepted only if its Signature-Input has an integer `date` parameter representable as a date and at most the leeway away from the verifier's clock in either direction (to the nanosecond, inclusive).", "quantifier": "every request, leeway and clock reading", "why_tests_cant": "boundary over all dates, leeways and nanosecond clocks", "anchors": ["src/verifying.rs: verify_except_digest"]}
{"id": "C16", "title": "A freshly signed request passes the default verifying configuration", "statement": "A request signed by this library and verified immediately with VerifyingConfig::new (date validation on by default) and the right key is accepted.", "quantifier": "every request and signing configuration", "why_tests_cant": "needs the whole pipeline for all configurations; (found false: the check reads a Signature-Input parameter that sign never emits)", "anchors": ["src/verifying.rs: verify_except_digest, VerifyingConfig::new", "src/signing.rs: sign"]}
{"id": "C17", "title": "Required components must be signed", "statement": "verify accepts only if every configured required component appears in the signed component list.", "quantifier": "every request and every set of required components", "why_tests_cant": "all sets, all attacker-chosen lists", "anchors": ["src/verifying.rs: verify_except_digest", "src/signature_input.rs: ComponentList::get_item"]}
{"id": "C18", "title": "Required derived components are satisfiable", "statement": "If a required derived component (such as @method) is in the signed list, requiring it does not cause rejection.", "quantifier": "every derived component and request", "why_tests_cant": "(found false for every derived component: the quoted form is compared with the unquoted name) the negative result is about all requests", "anchors": ["src/verifying.rs: verify_except_digest", "src/derived.rs: Display"]}
{"id": "C19", "title": "The configured label is used consistently", "statement": "A request signed with any label is accepted by verify with the matching key, i.e. Signature and Signature-Input use the same label.", "quantifier": "every label", "why_tests_cant": "(found false for every label other than \"sig\") universal over labels and requests", "anchors": ["src/signing.rs: sign", "src/verifying.rs: verify_signature_only"]}
{"id": "C20", "title": "Digest integrity", "statement": "With validate_digest on, a request that has a Digest header is accepted only if the first entry of that header with a supported algorithm equals the digest of the request body under that algorithm, and is rejected if no entry is supported or there is no body.", "quantifier": "every Digest header text, body and digest provider", "why_tests_cant": "all header texts (commas, spaces, case, '=' padding) and all bodies", "anchors": ["src/verifying.rs: verify", "src/verifying.rs: DefaultDigestProvider"]}
{"id": "C21", "title": "A body without a Digest header is rejected when a digest is required", "statement": "With require_digest on, a request with a body and no Digest header is never accepted, and a request without a body and without a Digest header is not rejected for that reason.", "quantifier": "every request and configuration", "why_tests_cant": "universal over requests", "anchors": ["src/verifying.rs: verify"]}
{"id": "C22", "title": "A required digest is covered by the signature", "statement": "With require_digest and validate_digest on, an accepted request with a body has its Digest header among the signed components, so its body cannot be replaced without invalidating the signature.", "quantifier": "every accepted request", "why_tests_cant": "(found false) the attack needs a header the signature does not cover; no test explores that", "anchors": ["src/verifying.rs: verify", "src/verifying.rs: VerifyingConfig::require_digest (doc)"]}
{"id": "C23", "title": "SimpleKeyProvider answers from its history", "statement": "After any sequence of construction, add, remove_all and clear, provide_keys(id) returns exactly the keys added for id since the last clear or remove_all of id, in order of addition.", "quantifier": "every sequence of operations and every key id", "why_tests_cant": "all histories", "anchors": ["src/verifying.rs: SimpleKeyProvider"]}
{"id": "C24", "title": "Any key of the key id may validate; the alg parameter selects nothing", "statement": "Acceptance depends on the provider's keys for the key id only as a set: it holds iff some key accepts; order and duplicates are irrelevant, and the value of alg is never compared with the key's algorithm name.", "quantifier": "every key list and every alg text", "why_tests_cant": "all permutations and key sets", "anchors": ["src/verifying.rs: verify_signature_only"]}
{"id": "C25", "title": "Signing changes nothing but its own headers", "statement": "Whatever the outcome, sign leaves the method, URL, body and every header other than date, host, digest, signature-input and signature unchanged, and changes date, host or digest only when it was absent (not derivable) and the corresponding option is on.", "quantifier": "every request and configuration, all outcomes including errors", "why_tests_cant": "frame condition over all requests", "anchors": ["src/signing.rs: add_auto_headers, sign"]}
{"id": "C26", "title": "A failed sign attaches no signature", "statement": "If sign returns an error, the signature header is the same as before; the signature-input header is the same as before too except when the label makes the signature header value invalid.", "quantifier": "every request and configuration", "why_tests_cant": "all error paths over all states", "anchors": ["src/signing.rs: sign"]}
{"id": "C27", "title": "sign panics exactly on unrepresentable configuration values", "statement": "For requests that do not produce invalid host values, sign panics exactly when it reaches the serialization step with a key id, algorithm name, nonce, time or component that structured fields cannot represent; with a printable-ASCII key id, token nonce, 15-digit times and valid components it never panics.", "quantifier": "every request and configuration", "why_tests_cant": "absence of panics over all inputs", "anchors": ["src/signing.rs: sign", "src/signature_input.rs: Display", "src/derived.rs: Display"]}
{"id": "C28", "title": "verify does not panic on attacker-controlled requests", "statement": "verify returns Ok or Err for every request.", "quantifier": "every request", "why_tests_cant": "(found false) the panicking set is characterised exactly: Signature-Input unparsable, or listing a non-string item or a string that is neither @-prefixed nor a valid header name", "anchors": ["src/verifying.rs: verify_signature_only (.ok().unwrap())", "src/signature_component.rs: From<Item>"]}
{"id": "C29", "title": "Signature text is canonical", "statement": "For HMAC algorithms, verification of a message accepts exactly one signature text, the one signing produces: base64 decoding accepts exactly the texts encoding produces.", "quantifier": "every key, message and signature text", "why_tests_cant": "all texts, including bad padding, stray bits, whitespace", "anchors": ["src/algorithm.rs: hmac_signature!"]}
{"id": "C30", "title": "Messages with several signatures", "statement": "A request with two or more signatures (comma-separated members of the Signature and Signature-Input dictionaries), the first of which is valid, is accepted.", "quantifier": "every pair of labels and signatures", "why_tests_cant": "(found false for every base64-decoding algorithm)", "anchors": ["src/verifying.rs: parse_signature_header", "src/signature_input.rs: TryFrom<&str>"]}
{"id": "C31", "title": "Header access is case-insensitive and last-write-wins", "statement": "Setting a header and deriving it under any spelling of its name gives the value set, and leaves the other headers alone.", "quantifier": "every sequence of header writes, every name spelling", "why_tests_cant": "all histories and spellings", "anchors": ["src/reqwest_impls.rs: set_header, derive", "httpsig-validator/src/mock_request.rs: set_header, derive"]}
{"id": "C32", "title": "Component identifiers print and parse back", "statement": "Parsing the printed form of a component gives the same component; an unquoted @name is rejected; anything accepted is a valid header name or a string item starting with @.", "quantifier": "every component and every input text", "why_tests_cant": "all texts", "anchors": ["src/signature_component.rs: FromStr, Display", "src/derived.rs: FromStr, Display"]}
{"id": "C33", "title": "The orders on components are total orders consistent with equality", "statement": "Comparison of components is a total order and two components compare Equal exactly when they are equal.", "quantifier": "every pair/triple of components", "why_tests_cant": "order laws quantify over all triples", "anchors": ["src/signature_component.rs: Ord", "src/derived.rs: Ord, PartialEq"]}
{"id": "C34", "title": "@query-params derives the decoded values of the named parameter", "statement": "Deriving @query-params;name=n gives the LF-joined list of the form-urldecoded values of the query parameters whose decoded name is n, in order; a parameter built by percent-encoding a name and value decodes to that name and value.", "quantifier": "every query string and name", "why_tests_cant": "all byte strings and encodings", "anchors": ["src/derived.rs: derive"]}
{"id": "C35", "title": "Derived components follow the request line", "statement": "@method, @scheme, @path, @query, @target-uri and @request-target derive the corresponding part of the request, @query only if a query exists; @status, @request-response, @signature-params and unknown names never derive.", "quantifier": "every method, URL, parameter set and name", "why_tests_cant": "all names and URLs", "anchors": ["src/derived.rs: derive"]}
{"id": "C36", "title": "@authority identifies the target authority", "statement": "Two requests to different authorities (host or port) derive different @authority values.", "quantifier": "every pair of URLs", "why_tests_cant": "(found false: the port is dropped)", "anchors": ["src/derived.rs: derive", "src/reqwest_impls.rs: host"]}
{"id": "C37", "title": "All values of a repeated header are covered", "statement": "If a header with several values is covered, changing any of its values changes the signature base.", "quantifier": "every header map", "why_tests_cant": "(found false: only the first value is covered)", "anchors": ["src/reqwest_impls.rs: derive"]}
{"id": "C38", "title": "MockRequest text round trip", "statement": "Writing a request with the validator and reading it back gives the same method, path, headers and body.", "quantifier": "every request whose parts survive line framing", "why_tests_cant": "all header sets and bodies", "anchors": ["httpsig-validator/src/mock_request.rs: from_reader, write"]}
{"id": "C39", "title": "Opaque header values are not silently signed as empty", "statement": "Two requests that differ in a covered header have different signature bases.", "quantifier": "every pair of header values", "why_tests_cant": "(found false for the validator's request type with non-ASCII values)", "anchors": ["httpsig-validator/src/mock_request.rs: derive"]}
{"id": "C40", "title": "The automatic Date header is a valid fixed-length HTTP date of the current time", "statement": "The Date value added by sign is a legal header value of 29 bytes for years 0..9999, and reading the calendar fields back gives the clock's second. Later years are written with a plus sign and all their digits, which is no HTTP date.", "quantifier": "every clock value", "why_tests_cant": "all dates, leap years, centuries", "anchors": ["src/signing.rs: add_auto_headers", "src/lib.rs: DATE_FORMAT"]}
{"id": "C41", "title": "Signature parameters behave as an insertion-ordered map", "statement": "After any sequence of set_* calls each getter returns the last value set for it and no other, and printing lists the parameters in order of first setting. Of parameters that were received the getters return the value if it is of the kind that the setter writes (for the nonce a token), and nothing otherwise.", "quantifier": "every sequence of setter calls", "why_tests_cant": "all histories", "anchors": ["src/signature_params.rs"]}
{"id": "C42", "title": "Signing configuration setters are independent", "statement": "After any sequence of configuration setter calls each getter returns the argument of the last call of its own setter (or the documented default).", "quantifier": "every sequence of setter calls", "why_tests_cant": "all histories", "anchors": ["src/signing.rs: SigningConfig"]}
{"id": "C43", "title": "skip_missing controls coverage", "statement": "With skip_missing on, a successful sign covers exactly the configured components the request has after automatic headers are added, in order; with it off, a successful sign covers all configured components and a missing one makes it fail with Canonicalize.", "quantifier": "every request and component list", "why_tests_cant": "all subsets", "anchors": ["src/signing.rs: add_auto_headers, sign"]}
{"id": "C44", "title": "The nonce is transmitted as given", "statement": "Signing with any nonce succeeds and the nonce appears as a structured-field string in Signature-Input.", "quantifier": "every nonce text", "why_tests_cant": "(found false: it is emitted as a token, and non-token nonces panic)", "anchors": ["src/signature_params.rs: set_nonce", "src/signing.rs: sign"]}
{"id": "C45", "title": "Verifier reads the first Signature-Input member", "statement": "The verifier's configuration comes from the first dictionary member only; later members never influence it unless they repeat its key.", "quantifier": "every Signature-Input text", "why_tests_cant": "all texts", "anchors": ["src/signature_input.rs: TryFrom<&str>"]}
{"id": "C46", "title": "Parameters on covered header fields are honoured", "statement": "The verifier's signature base repeats the component identifiers of the Signature-Input header with their parameters.", "quantifier": "every Signature-Input text", "why_tests_cant": "(found false: parameters of header fields are dropped)", "anchors": ["src/signature_component.rs: From<Item>"]}
{"id": "C47", "title": "Distinct HMAC keys give distinct algorithms", "statement": "Two different keys give different signatures on some message.", "quantifier": "every pair of keys", "why_tests_cant": "(found false: trailing zero bytes of short keys and pre-hashed long keys are equivalent)", "anchors": ["src/algorithm.rs: HmacSha256::new"]}
{"id": "C48", "title": "Validator option handling", "statement": "The validator's sign and verify configurations are built for exactly the algorithm names the code supports, every other combination is an error value, and the options it overrides are fixed.", "quantifier": "every combination of command-line options", "why_tests_cant": "all option combinations", "anchors": ["httpsig-validator/src/main.rs: Opt"]}
{"id": "C49", "title": "Reading a malformed request is an error, not a panic", "statement": "Reading a request from text either yields a request or reports an error value; it does not panic, whatever the bytes are.", "quantifier": "every byte string, every behaviour of the URL parser, trace logging on or off", "why_tests_cant": "all byte strings (found false: a non-UTF-8 body under trace logging, and a relative target whose Host header does not form a URL, panic)", "anchors": ["httpsig-validator/src/mock_request.rs: from_reader, derive_url"]}
{"id": "C50", "title": "Signature and digest texts have fixed length", "statement": "HMAC signature texts have 44 (SHA-256) or 88 (SHA-512) characters, digests likewise, and a verifier accepts no text of another length.", "quantifier": "every key, message and signature text", "why_tests_cant": "all keys and messages; truncation attacks try all lengths", "anchors": ["src/algorithm.rs: HmacSha256, HmacSha512", "src/lib.rs: DefaultDigestAlgorithm"]}
{"id": "C51", "title": "Algorithm names denote the scheme in use", "statement": "The name a signer or verifier reports denotes the signature scheme it actually uses, and so does the name of its type.", "quantifier": "every algorithm type of both back ends, key, message and tag", "why_tests_cant": "all keys and messages (found false: ring's RsaPssSha256 is RSA-PSS with SHA-512; the PSS types of the openssl back end use PKCS#1 v1.5)", "anchors": ["src/algorithm/ring.rs: rsa_signature", "src/algorithm/openssl.rs: rsa_signature"]}
{"id": "C52", "title": "Validator sign then verify", "statement": "The output of the validator's sign command is accepted by its verify command with the same algorithm, key id and the matching key.", "quantifier": "every input, option set, key pair and clock within created and expires", "why_tests_cant": "all inputs and option combinations (with a label other than sig: false)", "anchors": ["httpsig-validator/src/main.rs: main", "httpsig-validator/src/mock_request.rs: write, from_reader"]}
{"id": "C53", "title": "Signature-Input and component texts are read by the structured-field grammar", "statement": "A Signature-Input text is read successfully exactly when it is a structured-field dictionary whose first member is an inner list, with the label, items and parameters the grammar gives; anything else is one of two errors; reading a configuration panics exactly when an item of that list is not a component. A derived-component identifier is read exactly when it is a structured-field item starting with a quoted @. The grammar gives each text at most one meaning.", "quantifier": "every text", "why_tests_cant": "all texts, of any length and nesting of whitespace, parameters and members", "anchors": ["src/signature_input.rs: SignatureInput: TryFrom<&str>", "src/canonicalize.rs: CanonicalizeConfig::from_signature_input", "src/derived.rs: DerivedComponent::from_str", "src/signature_component.rs: SignatureComponent::from_str, From<Item>"]}
{"id": "C54", "title": "A key file loads to the key it contains", "statement": "A PEM file holding one block loads, for every signature type, to a verifier (or signer) using exactly the key inside it: the bit string of a SubjectPublicKeyInfo, the contents of a PKCS#1 public key file, or the private key the cryptographic library reads from the contents; text around the block, the label and line breaks do not matter, and the two public forms of one key give the same verifier.", "quantifier": "every signature type, label, surrounding text, line breaking, key and algorithm identifier", "why_tests_cant": "all files, lengths and DER length encodings", "anchors": ["src/algorithm/ring.rs: new_pkcs1_pem, new_spki_pem, new_pkcs8_pem, new_pkcs1_der, new_spki_der"]}
{"id": "C55", "title": "Key loaders reject files that are not keys of their kind", "statement": "A public key constructor fails on anything but a file of the format in its name holding a key for its algorithm.", "quantifier": "every text and byte string given to a key constructor of either back end", "why_tests_cant": "rejection must be shown for all inputs; in the code it is false for labels, algorithm identifiers and PKCS#1 contents (the key then silently accepts nothing)", "anchors": ["src/algorithm/ring.rs: new_pkcs1_der, new_spki_der", "src/algorithm/openssl.rs: new_pkcs8_pem"]}
{"id": "C56", "title": "The validator takes public keys in either format", "statement": "The validator's verify command with a public key file in PKCS#1 or SubjectPublicKeyInfo form verifies with that key, for every algorithm it offers.", "quantifier": "every option set, file and key", "why_tests_cant": "all files and algorithms (false for SubjectPublicKeyInfo files with every algorithm but one: the file is loaded and then everything is rejected)", "anchors": ["httpsig-validator/src/main.rs: verification_config"]}
{"id": "C57", "title": "Only what was signed is accepted, over any history of signing calls", "statement": "Take any history of successful calls of sign, on any requests and configurations. If a server accepts a request for a key id, then some call in the history with that key id covered exactly the components listed in the accepted Signature-Input, with the values the server sees and the same parameters, and the current time is within that call's created and expires times; or else some key of that key id accepted a signature over a text that no call signed (a forgery). No component is @query-params, whose values may contain line feeds.", "quantifier": "every history of sign calls, client and server request type, configuration, clock reading and accepted request", "why_tests_cant": "quantifies over unbounded histories and over all requests an attacker can assemble from pieces of earlier ones", "anchors": ["src/verifying.rs: VerifyingExt::verify", "src/signing.rs: SigningExt::sign", "src/canonicalize.rs: CanonicalizeExt::canonicalize"]}
{"id": "C58", "title": "A laxer verifying configuration accepts everything a stricter one accepts", "statement": "If a request is accepted, it is also accepted, with the same key id, after adding keys, dropping required components, switching off digest or date checks, or enlarging the date leeway.", "quantifier": "every server request type, request, clock reading and pair of configurations ordered this way", "why_tests_cant": "relates two runs for all inputs; a test can only compare particular pairs", "anchors": ["src/verifying.rs: VerifyingConfig, VerifyingExt::verify"]}
{"id": "C59", "title": "The verdict depends only on what is covered", "statement": "Two requests, possibly of different types, that agree on the headers Signature-Input, Signature and Digest, on the components listed in Signature-Input and on the digests of their bodies get the same verdict: accepted with the same key id, rejected, or a panic. In particular any header not covered may be added or changed.", "quantifier": "every pair of server request types and requests, configuration and clock reading", "why_tests_cant": "non-interference relates all pairs of requests", "anchors": ["src/verifying.rs: VerifyingExt::verify"]}
{"id": "C60", "title": "Signing again changes nothing", "statement": "Signing a signed request again with the same configuration at the same time succeeds and leaves every component of the request as it was. Signing it again later, or with another key, label, nonce or validity, succeeds when the new times and parameters are valid, replaces the two signature headers and nothing else, and signs the values the request has.", "quantifier": "every client request type with the laws of C25, request, pair of configurations covering the same components and no signature header, clock readings", "why_tests_cant": "an equation between two runs for all requests and configurations", "anchors": ["src/signing.rs: SigningExt::sign, add_auto_headers", "src/reqwest_impls.rs", "httpsig-validator/src/mock_request.rs"]}
{"id": "C61", "title": "The body of an unauthenticated request is not read", "statement": "When any check other than the digest's fails, the request is completed without computing a digest of its body. Otherwise the body is digested at most once, with the algorithm of the entry that is compared (SHA-256 if there is no Digest header and one is required), and what the caller gets back comes from that.", "quantifier": "every server request type, request, configuration and clock reading that ends without a panic", "why_tests_cant": "which of two trait methods is called must be known on every path", "anchors": ["src/verifying.rs: VerifyingExt::verify, ServerRequestLike"]}
{"id": "C62", "title": "Logging the signature base cannot fail", "statement": "The signature base is UTF-8 text whenever the component values are, and so for every reqwest and MockRequest request; the conversions to String done for trace logging never panic.", "quantifier": "every request and canonicalization configuration", "why_tests_cant": "all header values, URLs and percent-encoded query strings", "anchors": ["src/canonicalize.rs: CanonicalizeExt::canonicalize", "src/verifying.rs: verify_signature_only"]}
{"id": "C63", "title": "A component listed twice is rejected", "statement": "A signature whose Signature-Input lists the same component twice is not accepted (the draft requires each identifier to occur once).", "quantifier": "every request", "why_tests_cant": "rejection must hold for all inputs (found false)", "anchors": ["src/verifying.rs: VerifyingExt::verify", "src/canonicalize.rs"]}
{"id": "C64", "title": "Digests and MACs are the standard ones", "statement": "The Digest values are the base64 texts of SHA-256 and SHA-512 of the body as FIPS 180-4 defines them, and the HMAC signatures the base64 texts of the RFC 2104 codes of the signed text; a text is accepted as HMAC signature exactly when it is that one.", "quantifier": "every body, key and message up to the sizes the standards define", "why_tests_cant": "test vectors cover a few lengths; padding and block boundaries, word overflow and key lengths range over all inputs", "anchors": ["src/verifying.rs: DefaultDigestProvider", "src/algorithm.rs: Sha256, Sha512, HmacSha256, HmacSha512"]}
{"id": "C65", "title": "Automatic headers have the documented values", "statement": "After sign, a Date, Host or Digest header that had no value and is configured to be added holds the HTTP date of the clock, the host of the request (of its URL for reqwest) and '<name>=<digest of the body>'; every other component (except the two signature headers) has the value it had.", "quantifier": "every client request type, request, configuration, clock reading and result of sign", "why_tests_cant": "a complete description of the effect on all components of all requests", "anchors": ["src/signing.rs: add_auto_headers, sign", "src/reqwest_impls.rs", "httpsig-validator/src/mock_request.rs"]}
{"id": "C66", "title": "sign is exactly its specification", "statement": "Whether sign succeeds, and which error it returns otherwise, is determined by: a creation time in the future, an expiry in the past, a component missing from the completed request while missing ones are not skipped, a label or signature that no header can hold. On success Signature-Input is 'sig=' and the printed list, and Signature is label, '=:', the signature of the signature base of the completed request, ':'.", "quantifier": "every client request type, request, configuration, clock reading and randomness", "why_tests_cant": "an equivalence over all inputs, in both directions", "anchors": ["src/signing.rs: SigningExt::sign"]}
{"id": "C67", "title": "verify is exactly its specification", "statement": "verify panics exactly when the Signature-Input header is present and cannot be read. Otherwise it returns the one result its conditions give: rejection unless headers, times, key, required components and date are in order; then by the Digest header and the digest settings acceptance or rejection; and in each case the remainder of the request, with its body consumed exactly when a digest was computed.", "quantifier": "every server request type, request, configuration and clock reading", "why_tests_cant": "an equivalence over all inputs, in both directions, including the returned remainder", "anchors": ["src/verifying.rs: VerifyingExt::verify, verify_except_digest, verify_signature_only"]}
{"id": "C68", "title": "Acceptance over time is an interval, and without expiry for ever", "statement": "A request that is accepted once is accepted at another time exactly when that time is not before created, not after expires and, if the date is validated, within the leeway of the date parameter; so the times of acceptance form an interval with the same key id throughout. Without expires and date validation, a request once accepted is accepted at every later time.", "quantifier": "every request, configuration and pair (triple) of clock readings", "why_tests_cant": "ranges over all times, and says nothing else in the code depends on time", "anchors": ["src/verifying.rs: verify_signature_only, verify_except_digest"]}
{"id": "C69", "title": "Adding and revoking keys", "statement": "With a SimpleKeyProvider, after any sequence of add, remove_all and clear, a request is accepted for a key id only if one of the keys added under it since it was last removed validates the signature. Once a key id has been removed no request is accepted for it until a key is added under it; operations on other key ids change no result; adding keys withdraws no acceptance.", "quantifier": "every sequence of operations on the provider, every request and configuration", "why_tests_cant": "all histories", "anchors": ["src/verifying.rs: SimpleKeyProvider, verify_signature_only"]}
{"id": "C70", "title": "Requests signed with reqwest verify on the other side", "statement": "What a reqwest client (asynchronous or blocking) signs, a MockRequest with the same method, URL, headers and body accepts, given the key and within the validity; expected for all components and bodies, but requests covering @authority are never accepted, and streamed bodies of the asynchronous client are rejected when a digest is required.", "quantifier": "every request, configuration, key pair and time", "why_tests_cant": "relates two implementations of the request traits on all messages", "anchors": ["src/reqwest_impls.rs", "httpsig-validator/src/mock_request.rs", "src/verifying.rs: verify"]}
{"id": "C71", "title": "A run of the validator is exactly its specification", "statement": "What the validator prints or reports in each mode is determined by its input, its options and the clock. It aborts when the input is not a request. canonicalize prints the signature base, or fails for an invalid option or a component without value. sign prints the request with exactly two headers added (replacing earlier ones of the name), or fails for an invalid option, key, time, component without value or unprintable header. verify prints nothing and succeeds exactly when some key id is accepted, with digests checked, no component or digest required and dates not looked at; it aborts exactly when Signature-Input cannot be read.", "quantifier": "every input, option setting, file system, key, clock reading and randomness", "why_tests_cant": "an equivalence between the program and a specification over all inputs and options", "anchors": ["httpsig-validator/src/main.rs: main, Opt", "src/canonicalize.rs: canonicalize", "src/signing.rs: sign", "src/verifying.rs: verify", "httpsig-validator/src/mock_request.rs: from_reader, write"]}
{"id": "C72", "title": "A failing run of the validator prints nothing", "statement": "A script that finds a non-zero exit status of the validator expects no output. This holds except in sign mode when a header value of the request is not visible ASCII: then the signed request is printed up to the header before it, and the run fails. The theorem says exactly when and what is printed; a run that succeeds has printed its whole output.", "quantifier": "every input, option setting, file system, key, clock reading and randomness", "why_tests_cant": "says that no failing run, over all inputs and options, prints anything else", "anchors": ["httpsig-validator/src/main.rs: main", "httpsig-validator/src/mock_request.rs: write"]}
{"id": "C73", "title": "A request can be signed again with its earlier signature covered", "statement": "A proxy signs a request that already carries a signature and covers the earlier Signature and Signature-Input headers; the result is expected to be accepted. It is not: sign replaces the headers it has just covered, so what it returns is accepted only if the header was replaced by the value it had, or the signature of one base is accepted for another (with HMAC, a collision).", "quantifier": "every request, configuration, key, verifying configuration and time", "why_tests_cant": "a negative statement about all requests and configurations", "anchors": ["src/signing.rs: sign", "src/verifying.rs: verify", "httpsig-validator/src/mock_request.rs: derive, set_header"]}
{"id": "C74", "title": "Requests with the same values are signed alike by all request types", "statement": "The result of sign and the two headers it adds depend only on the values of the configured components (and on the host and the digest of the body, where a header is added for them), not on the type of the request. The asynchronous and the blocking reqwest requests are signed alike, errors and panics included, unless the body is a stream; reqwest requests and the validator's request are signed alike unless a covered header is not visible ASCII, @authority is covered or a Host header is to be added from the URL. With a streamed body, or a header that is not visible ASCII, they differ.", "quantifier": "every pair of request types with the laws of C25, requests, configuration, clock reading", "why_tests_cant": "an equation between runs on different request types for all requests and configurations", "anchors": ["src/signing.rs: SigningExt::sign, add_auto_headers", "src/reqwest_impls.rs", "httpsig-validator/src/mock_request.rs"]}
{"id": "C75", "title": "The signed target is the requested one", "statement": "A signature over @path and @query of a request read by the validator is expected to cover the path and query written in its request line. Behind a Host header that is a host with or without a port this holds exactly when the path is in normal form (nothing to encode, no backslash, no dot segments) and the query needs no encoding; then @target-uri is http://, the host, the port and the target as written. In general it fails: putting /. before the target changes no component and no verdict, a Host header containing a slash supplies the path itself, and an empty one turns the first segment of the target into the host.", "quantifier": "every request text, host name parser and parser of non-special schemes", "why_tests_cant": "all targets and Host headers (found false for dot segments and for Host headers with slashes or without text)", "anchors": ["httpsig-validator/src/mock_request.rs: from_reader, derive_url", "src/derived.rs: derive"]}
{"id": "C76", "title": "@target-uri determines the whole URL", "statement": "Two requests with http, https, ws, wss or ftp URLs obtained by parsing that have the same @target-uri have the same scheme, user, host, port, path, query and fragment, and so the same value of every derived component but @method. If a request is accepted with a signature that covers @target-uri, its URL is the one that was signed, or a key accepts the signature of one signature base for another.", "quantifier": "every pair of texts that parse as URLs, every host name parser whose results are printable, without delimiters and parse to themselves; every signed request, key, configuration and time", "why_tests_cant": "injectivity of a serializer over all parsed URLs, and all modifications of all signed requests", "anchors": ["src/derived.rs: derive", "httpsig-validator/src/mock_request.rs: derive_url", "src/verifying.rs: verify", "src/reqwest_impls.rs"]}
{"id": "C77", "title": "An accepted request is one that was signed", "statement": "Clients sign requests covering @method, @target-uri and the Digest header, which sign computes. A request that a server accepts, validating digests and requiring the Digest header to be signed, has the method, the URL and all covered header values of one of the requests signed under the key id returned, and a body with the same hash as that request's body, and is verified within the validity given when it was signed; or its own signature is one that no call of sign made over its own signature base. If the server does not require the Digest header to be signed, a request signed without a body can be given any body.", "quantifier": "every history of sign calls on reqwest requests (asynchronous or blocking) or validator requests with parsed URLs, every request presented to the server, every key provider, configuration and time", "why_tests_cant": "all modifications of all requests after all histories of calls", "anchors": ["src/signing.rs: sign", "src/verifying.rs: verify", "src/canonicalize.rs: CanonicalizeExt::canonicalize", "src/derived.rs: derive", "src/verifying.rs: DefaultDigestProvider", "src/reqwest_impls.rs", "httpsig-validator/src/mock_request.rs"]}
{"id": "C78", "title": "The log of a rejection says why", "statement": "verify writes no log line (at level info) for a request it accepts, and for a request it rejects the line of the first check that fails, in the documented order of the checks, with the key id, component, or time difference concerned. Exactly one reason applies to each rejected request. The lines depend on the keys only through their verdicts, and a sender can put only visible ASCII, no line break, into them. A Signature header without \"=\" is reported twice. A Signature-Input header that does not parse is reported before the panic.", "quantifier": "every request of every request type, every configuration, every pair of clock readings after 1970", "why_tests_cant": "completeness and exclusiveness of the reasons over all requests, and independence of the keys", "anchors": ["src/verifying.rs: verify_signature_only", "src/verifying.rs: verify_except_digest", "src/verifying.rs: verify", "src/verifying.rs: parse_signature_header", "src/signature_input.rs: SignatureInput", "src/macros.rs: info"]}
{"id": "C79", "title": "A host has one spelling", "statement": "The hosts in URLs are read as the URL standard says (IPv4 addresses with one to four decimal, octal or hexadecimal numbers, IPv6 addresses in all notations, percent-encoded names), every host is written in exactly one way (RFC 5952 for IPv6), and what is written stands for that host. So requests have the same @authority iff they are for the same host, however their URLs spell it, and an accepted request whose signature covers @target-uri is for the host that was signed for.", "quantifier": "every text, every host, every pair of URLs, every IDNA mapping that is idempotent, has ASCII results and keeps digits and dots", "why_tests_cant": "one form per host out of unboundedly many spellings, injective over all hosts", "anchors": ["httpsig-validator/src/mock_request.rs: from_reader", "src/reqwest_impls.rs: host", "src/derived.rs: derive"]}
{"id": "C80", "title": "The command line says what the validator does", "statement": "The validator starts with a configuration exactly when its arguments are a command line for it: options, a mode, options, each option at most once on each side of the mode, those after the mode winning. Order and spelling of the options (-k v, -kv, -k=v, --keyId v, --keyId=v) and their side of the mode do not matter, and every configuration with 64-bit times can be given. But a value that starts with a hyphen must be attached to its option, and -d with its value apart must not stand directly before the mode. Asking for help or the version prints these and runs nothing. The README's pipeline sign | verify succeeds, without output, for all files, key names and header lists for which sign succeeds and the keys belong together.", "quantifier": "every list of arguments, every configuration, every order, spelling and position of its options, every input and environment for the pipeline", "why_tests_cant": "arguments are unbounded lists of unbounded strings, and the claim is an equivalence", "anchors": ["httpsig-validator/src/main.rs: Opt", "httpsig-validator/src/main.rs: Mode", "httpsig-validator/src/main.rs: main", "httpsig-validator/README.md"]}
{"id": "C81", "title": "A request built by hand is the request asked for", "statement": "MockRequest::new with an absolute http(s), ws(s) or ftp URL never panics and gives a request with that method, URL and headers, whose Host header is the host of the URL; after any calls of with_header and with_body the last body and the last value of each header (with_body setting Content-Length to the decimal length of the body) count and nothing else has changed; with_body never panics; and the request can be written and is read back the same, except for its HTTP version. The Host header does not name the port.", "quantifier": "every URL text, method, header map, and sequence of calls, every body", "why_tests_cant": "unbounded call histories and inputs; exact panic conditions", "anchors": ["httpsig-validator/src/mock_request.rs: MockRequest::new", "httpsig-validator/src/mock_request.rs: with_header", "httpsig-validator/src/mock_request.rs: with_body", "httpsig-validator/src/mock_request.rs: write", "httpsig-validator/src/mock_request.rs: from_reader"]}
{"id": "C82", "title": "Signatures travel between key files and libraries", "statement": "A signer or verifier of the openssl back end uses the key its library call reads from the file, and constructing it fails exactly when the call does. A signature made with a private key verifies with the public key of the pair whatever kinds of file the two were loaded from, with either back end, and between the two back ends.", "quantifier": "every key type, key file, key pair, message and choice of constructors", "why_tests_cant": "all combinations of constructors, types and back ends, for all keys and messages", "anchors": ["src/algorithm/openssl.rs: new_pkcs8, new_pkcs8_pem, new_pkcs1_der, new_pkcs1_pem, new_der, new_pem", "src/algorithm/ring.rs: new_pkcs8, new_pkcs8_pem, new_pkcs1, new_pkcs1_pem, new_pkcs1_der, new_spki_der, new_spki_pem"]}
{"id": "C83", "title": "Components made in code", "statement": "A derived component made with new and any calls of with_param has that name and these parameters, in order of first setting and with the last value of each; it prints as the structured-field item of these, or panics exactly if the name, a key or a value cannot be written as one; if its name starts with @ and no key is empty, the text parses back to the same component; a @query-params component covers the values of the parameter last named; to_header_name of a parsed component is the header field it spells.", "quantifier": "every name, every sequence of with_param calls, every request", "why_tests_cant": "unbounded call histories and strings", "anchors": ["src/derived.rs: DerivedComponent::new, with_param, name, param, derive, Display, FromStr", "src/signature_component.rs: to_header_name"]}
{"id": "C84", "title": "The README's example and its note on streamed bodies", "statement": "Signing a request as in the README's example, with the default configuration, ties the signature to that request. As the README notes, the digest of a streamed body of the non-blocking client is in the signature exactly if the user set a Digest header before, and with the blocking client it is computed and covered.", "quantifier": "every request of every client, every label, key id, key and time; every other request the headers are copied to", "why_tests_cant": "all pairs of requests", "anchors": ["README.md", "src/signing.rs: SigningConfig::new_default, SigningConfig::new, SigningExt::sign", "src/reqwest_impls.rs: compute_digest", "src/verifying.rs: verify"]}
{"id": "C85", "title": "Keys that were accepted can sign", "statement": "A signer of the openssl back end that was constructed signs every message: http_sign does not panic, and neither does sign on a request that another signer would sign. http_verify never panics. The signers of ring panic exactly if the library reports an error, which it does if the random source fails.", "quantifier": "every key the library reads, key type, message, request and configuration", "why_tests_cant": "all kinds and sizes of keys, all messages", "anchors": ["src/algorithm/openssl.rs: http_sign, http_verify, new_pkcs8", "src/signing.rs: sign"]}
{"id": "C86", "title": "Conformance with the draft", "statement": "Signatures follow draft-ietf-httpbis-message-signatures-17, which the README names: the covered values are those of its sections 2.1 and 2.2, the signed text is the signature base of section 2.3 and the parameters have its types, so that another implementation of the draft accepts the signatures of sign, and verify accepts its signatures.", "quantifier": "every request with an http URL, every configuration and every component the draft gives a value to", "why_tests_cant": "the draft's example messages are a few requests; conformance is about all methods, URLs, header values and configurations", "anchors": ["src/derived.rs: DerivedComponent::derive", "src/reqwest_impls.rs: RequestLike for Request", "httpsig-validator/src/mock_request.rs: RequestLike for MockRequest", "src/canonicalize.rs: canonicalize", "src/signing.rs: sign", "src/verifying.rs: verify", "README.md"]}
{"id": "C87", "title": "The validator's README", "statement": "The commands in the README of the validator do what it says: canonicalize and sign print the documented output for every request that has the named headers, the pipeline of sign and verify succeeds, verification prints nothing on success, and keys made as described can be used.", "quantifier": "every request on standard input, every list of header names, algorithm, key identifier and key file", "why_tests_cant": "the README shows one request, one list of headers and one key; users run the commands with theirs", "anchors": ["httpsig-validator/README.md", "httpsig-validator/src/main.rs: main, canonicalize_config, signing_config, verification_config", "test_data/basic_request.txt"]}
{"id": "C88", "title": "The trace log", "statement": "Switching the log to level trace changes no result of sign or verify. sign writes the text that is signed and the Signature-Input that goes with it, or the missing components, or nothing if it stops before. verify writes the text it checks before the line that says why it rejects; for an accepted request it writes that text only. No line depends on a key, or on a value that is not to be signed. The text in the verifier's log is the text in the signer's log exactly if every signed value has arrived.", "quantifier": "every request type that obeys the trait laws, every request, configuration, key and clock reading", "why_tests_cant": "a leak, a panic in a log statement or a text other than the one signed may need particular values; tests run with the log off", "anchors": ["src/canonicalize.rs:canonicalize", "src/verifying.rs:verify_signature_only", "src/signing.rs:sign"]}
{"id": "C89", "title": "Component lists, items and their texts", "statement": "A component that can be written in a Signature-Input converts to a structured-field item and back unchanged. An item converts to a component if it is a string that starts with @ or is a field name; the conversion panics on every other item. Going to a component and back keeps an item exactly if it is derived or a bare lower-case field name. get_item returns the first item that is the given string. A list converts to a component list exactly if its first entry is an inner list, and as_list converts back to itself. A component list and a Signature-Input print as the structured-field text of their contents, or the printing panics if there is none.", "quantifier": "every component, item, inner list, list, label and key", "why_tests_cant": "items, names and parameters are arbitrary texts; one item in the wrong place or a lost parameter shows only for particular lists", "anchors": ["src/signature_component.rs:SignatureComponent", "src/derived.rs:DerivedComponent", "src/signature_input.rs:ComponentList", "src/signature_input.rs:SignatureInput"]}
{"id": "C90", "title": "The actix-web adapter", "statement": "At an actix-web server, the components of a request have the values of its method, request line and header fields, and its body is digested as a whole however it arrives in chunks, and handed back. A request is judged as the same MockRequest is, if only header fields, method, path and query are covered and the body is not empty; such a request, signed with reqwest, is accepted. Every request signed with reqwest should be: one that covers @request-target, @target-uri, @authority, @scheme or @query-params is not, and an empty body with a Digest header is rejected even if the digest is right. What is handed back with the verdict is the whole body, or nothing.", "quantifier": "every request, body, way of cutting the body into chunks, list of covered components, configuration, key and clock", "why_tests_cant": "the values depend on the form of the request line, and the digest on how the network cut the body; the claim is over all requests and splits", "anchors": ["src/actix_web_impls.rs:ServiceRequest", "src/actix_web_impls.rs:complete_with_digest", "src/verifying.rs:verify"]}
{"id": "C91", "title": "RSA behind the algorithms", "statement": "With RSA as in RFC 8017: a tag is accepted under a public key just when it is a PKCS #1 v1.5 or PSS signature of the message; what the private key of a pair signs is accepted under the public key, for every message; with PKCS #1 v1.5 exactly one signature text is accepted for a message, with PSS one for each salt; a signature accepted for another message, or a changed request that is accepted, gives a collision of SHA-256 or SHA-512; ring reads as public keys exactly the DER structures of an odd modulus of 256 to 1024 bytes and an odd exponent between 3 and 2^33, and nothing verifies with other bytes. A signature of a PSS type made with openssl should verify with ring: it does not, nor the other way, unless the digest of the message ends with the byte 188.", "quantifier": "every RSA key of any size and number of primes, message, salt, tag, signature text, key file and request", "why_tests_cant": "tests sign a few messages with one key; that no other tag is accepted, and that it works for every key and message, is number theory", "anchors": ["src/algorithm/ring.rs:http_sign", "src/algorithm/ring.rs:http_verify", "src/algorithm/openssl.rs:http_sign", "src/algorithm/openssl.rs:http_verify"]}
{"id": "C92", "title": "ECDSA behind the algorithm", "statement": "With ECDSA as in FIPS 186-4 over P-256 (or any curve with good parameters): a tag is accepted under a public key just when the key is an uncompressed point of the curve and the tag is, in DER, a pair that the standard calls a signature of the message; nothing verifies with other keys; a private key signs with the first number drawn that works, and what it signs is accepted under its public key, for every message; a signature of one message that is accepted for another, or a changed request that is accepted, gives digests that are equal modulo the order, or one other relation that contains the private number, or a first number smaller than the difference of the two primes of the curve. Exactly one signature text should be accepted for a message and a number drawn, in the 64 bytes the draft asks for, and a text for one message only: none of the three is so.", "quantifier": "every curve with prime field and prime order, key, message, list of numbers drawn, tag, signature text and request", "why_tests_cant": "tests sign a few messages with one key; that no other tag is accepted, and that it works for every key and message, needs the group law of the curve", "anchors": ["src/algorithm/ring.rs:EcdsaP256Sha256Sign", "src/algorithm/ring.rs:EcdsaP256Sha256Verify"]}
{"id": "C93", "title": "ECDSA private-key files", "statement": "An ECDSA signer is made from a PKCS#8 file, DER or PEM, just when the file (shorter than 64 KiB) is a PrivateKeyInfo of version 0 for P-256 whose ECPrivateKey has version 1, a private number from 1 to n - 1 in 32 bytes, optionally the same curve, and the public key that is that multiple of the generator; attributes do not matter. The signer signs with that number; what it signs is accepted by every verifier made from that public key, and requests signed with it verify. A file holds one pair, a public key has one private key, every number has a file. Files of the standard without the optional public key, and those in the form of RFC 5915 without PKCS#8, should be read too: they are not.", "quantifier": "every file, curve with good parameters, private number, list of numbers drawn, request and configuration", "why_tests_cant": "the tests load one key file; which of all byte strings are read, and that each signer made this way is accepted by the verifiers of its public key, is about every file and number", "anchors": ["src/algorithm/ring.rs:EcdsaP256Sha256Sign::new_pkcs8", "src/algorithm/ring.rs:EcdsaP256Sha256Sign::new_pkcs8_pem", "test_data/ecc-private.pem"]}
{"id": "C94", "title": "RSA private-key files", "statement": "An RSA signer is made from a file (PKCS#8 labelled rsaEncryption, or a bare RSAPrivateKey; DER or PEM; shorter than 64 KiB) just when its numbers have the sizes and relations ring asks for; a file holds one key; all four constructors and all four types give a signer with that key. Keys of two different primes as in RFC 8017, of 2048, 3072 or 4096 bits, are all read. Every text a signer returns is a signature of RFC 8017 under the modulus and public exponent in the file, so every verifier made with them accepts it, whatever the other numbers are. If the exponents for the factors belong to the public exponent, signing never fails, the tag is the one computed from modulus and private exponent alone, and requests signed with the file verify. A file that is read should always sign, its modulus should be the product of its factors, and a key labelled for PSS should serve the PSS types: none of the three holds.", "quantifier": "every file, number, key type, message, random value, request and configuration", "why_tests_cant": "the tests load one key file and sign a few messages; which byte strings are read, that the computation with the factors is right for every key and message, and that nothing wrong is ever returned, is about all of them", "anchors": ["src/algorithm/ring.rs:RsaSha256Sign::new_pkcs8", "src/algorithm/ring.rs:new_pkcs1", "src/algorithm/ring.rs:http_sign", "test_data/rsa-private.pem", "test_data/rsa-private-justin.pem"]}
{"id": "C95", "title": "The validator with RSA key files", "statement": "With an RSA private key and its public key in two PEM files, what the validator's sign command prints is accepted by its verify command, now or later, for each algorithm it offers; in particular the two documented commands succeed for any header fields the request has. The verify command succeeds exactly when the request on its input carries a signature of RFC 8017, under the modulus and exponent in the file, over its signature base, its times are in order and its Digest header (if any) is right. The sign command reports a key error exactly for the PEM files that hold no PKCS#8 RSA key of the sizes and relations ring asks for.", "quantifier": "every pair of key files, algorithm name, key id, choice of headers, request text and clock", "why_tests_cant": "the validator has no tests; the claim joins two runs of a program through their texts and key files and ranges over all of them", "anchors": ["httpsig-validator/src/main.rs: main, signing_config, verification_config", "httpsig-validator/README.md", "src/algorithm/ring.rs:RsaSha256Sign", "src/algorithm/ring.rs:RsaSha256Verify"]}
{"id": "C96", "title": "The validator on streams that fail", "statement": "If reading the request fails at any point, the validator panics, prints nothing, and neither signs nor accepts any part of it. If standard output fails after some number of bytes, exactly that beginning of the right output is written, and the run ends as it should or with an I/O error. If the output consists of whole lines, success is reported just when all of it was written. In general success should mean that the output is complete: it does not; the end of the last line (up to 1024 bytes) can be missing, for instance the end of the body of a signed request, which is then accepted.", "quantifier": "every input, option set, point at which reading fails and number of bytes that can be written", "why_tests_cant": "failures can occur at every byte of every input and output", "anchors": ["httpsig-validator/src/main.rs: main", "httpsig-validator/src/mock_request.rs: from_reader, write"]}
{"id": "C97", "title": "A signed request cut short", "statement": "If the end of the validator's output of sign is lost, at any byte (for instance because standard output failed), the rest should not be accepted by verify. For a request that had no Signature header before it was signed, it is accepted in one case: if it still has the method, the target and all header fields of the request that was signed and only its body is shorter or missing; and if the request has a right Digest header, only if the shorter body has the same SHA-256 or SHA-512 digest as the whole one. If the request had a Signature header before, header fields after it can be lost as well.", "quantifier": "every request, option set, key set, clock and point at which the output is cut", "why_tests_cant": "the cut can be at every byte of every signed request", "anchors": ["httpsig-validator/src/main.rs: main", "httpsig-validator/src/mock_request.rs: from_reader, write", "src/verifying.rs: verify"]}
{"id": "C98", "title": "Every form of request target", "statement": "A request target with a scheme is read as that URL, whatever its scheme and the Host header; what URL it is follows the URL standard. Any other target is put directly behind the Host header, and only the joined text counts. Whatever the scheme (but file), requests with the same @target-uri have the same URL and the same derived components but @method, and a request accepted with a signature that covers @target-uri has the signed URL, or there is a forgery. The authority-form (of CONNECT) and the asterisk-form (of OPTIONS) should be read as RFC 7230 says: they are not. The first gives a URL whose scheme is the host and whose path is the port; the second adds the asterisk to the host; an address with a port and the asterisk panic behind a Host header with a port.", "quantifier": "every request text, host parser, signing and verifying configuration", "why_tests_cant": "the tests parse a few requests whose targets are paths; the forms range over all texts", "anchors": ["httpsig-validator/src/mock_request.rs: from_reader, derive", "src/derived.rs: derive"]}
{"id": "C99", "title": "Signed requests with more text at their end", "statement": "Text added behind a request with a body is read as more of the body and nothing else; an accepted request stays accepted with it exactly if its Digest header, if any, is right for the longer body, so with a Digest header it is rejected unless two bodies have the same hash. Text added behind a request without a body is read as more header lines, the last of each name counting, and perhaps a body; it leaves the method, the target and the value of every covered component, or there is a forgery. Such text should be rejected: without a Digest header, more body, and lines for headers that are not covered, are accepted.", "quantifier": "every request text, added text, option set, key and clock reading", "why_tests_cant": "no test verifies a request with anything added; the added text is arbitrary", "anchors": ["httpsig-validator/src/mock_request.rs: from_reader", "httpsig-validator/src/main.rs: main", "src/verifying.rs: verify, verify_except_digest"]}
{"id": "C100", "title": "What the validator signed is what it accepts", "statement": "If verify accepts any text at all that carries the Signature and Signature-Input values that a run of sign wrote, every component that sign was told to cover has the value that it had in the request that was signed, or the key of verify accepts the signature for another text than the one that was signed. If a right Digest header is covered, the body is the one that was signed too, or two bodies have the same SHA-256 or SHA-512.", "quantifier": "every request text given to sign, every text given to verify, every option set, key and clock reading", "why_tests_cant": "the tests verify one signed request, unchanged; the changes are arbitrary", "anchors": ["httpsig-validator/src/main.rs: main", "httpsig-validator/src/mock_request.rs: from_reader, write", "src/signing.rs: sign", "src/verifying.rs: verify, verify_except_digest"]}
{"id": "C101", "title": "The validator accepts only what it signed", "statement": "Take any runs of the sign command, with any options, keys and requests. If the verify command accepts any text at all, then the text carries a signature over the components that one of the runs covered, in the same order, with the values that they had in the request of that run, with the same key id and the same signature parameters, at a time within those that the run was given; or the key accepts a signature over a text that no run signed.", "quantifier": "every sequence of sign runs, every text given to verify, every option set, key and clock reading", "why_tests_cant": "the tests make one signature and verify one request; the history and the text are arbitrary", "anchors": ["httpsig-validator/src/main.rs: main", "httpsig-validator/src/mock_request.rs: from_reader, write", "src/signing.rs: sign", "src/verifying.rs: verify, verify_except_digest"]}
{"id": "C102", "title": "canonicalize shows what sign digests", "statement": "The validator's README says that canonicalize shows the signing input that is then digested by sign. Expected: with the same options and request, canonicalize prints exactly the text that sign signs. This fails, always: no text that canonicalize prints is signed by any run of sign. With the same options and request the two texts are equal up to the parameters at the end of the last line; there sign drops the nonce, adds an empty key id if none is given, and has the algorithm first, under the name of the key's algorithm. If sign signs something, canonicalize prints something, unless the nonce is not a token.", "quantifier": "every option set, request, key and clock reading, for both commands", "why_tests_cant": "the tests run neither command; that the texts never coincide is about all pairs of runs", "anchors": ["httpsig-validator/README.md: Canonicalization", "httpsig-validator/src/main.rs: canonicalize_config, signing_config, main", "src/signing.rs: sign", "src/canonicalize.rs: canonicalize"]}
{"id": "C103", "title": "What canonicalize shows is what verify digests", "statement": "Take the text that canonicalize prints for a request. Sign it with any tool, and put into the request the signature and, as Signature-Input, what stands after \"@signature-params\": on the last line of the text. Verify accepts that request exactly if a key given for the key id accepts the signature for that text, the Digest header, if any, is right for the body and the time is within created and expires. Without a key id nothing is accepted.", "quantifier": "every option set with no empty nonce that covers neither of the two headers, every request, every signature text without colons at its ends, every key and clock reading", "why_tests_cant": "there is no test of the two commands together; the signature and the request are arbitrary", "anchors": ["httpsig-validator/README.md: Canonicalization", "httpsig-validator/src/main.rs: canonicalize_config, verification_config, main", "src/canonicalize.rs: canonicalize, CanonicalizeConfig::parse", "src/verifying.rs: verify_signature_only"]}
