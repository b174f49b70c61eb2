{"id": "C01", "title": "Inclusion proof binds the entry to its position", "statement": "If inclusion verification accepts a log entry whose proof claims position i in a log of n entries (i < n) and the proof's root is the RFC 6962 root of an n-entry log, then the entry's body is exactly the i-th entry of that log; the only other possibility is a SHA-256 collision between two strings that this verification and that log actually hash.", "quantifier": "every log (any number and any contents of entries), every claimed position below the log size, every entry body, every list of sibling hashes (any number, any length each)", "why_tests_cant": "the set of logs, proofs and positions is infinite; a forged proof that slips through for one tree shape is not found by sampling", "anchors": ["sigstore/_internal/merkle.py: verify_merkle_inclusion, _decomp_inclusion_proof, _chain_inner, _chain_border_right"]}
{"id": "C02", "title": "Accepted inclusion proof implies membership, whatever index and size it claims", "statement": "If inclusion verification accepts an entry against the RFC 6962 root of some log, then the entry's body is one of that log's entries, for every claimed index and every claimed tree size (even wrong, negative or out-of-range ones); the only other possibility is a SHA-256 collision between strings actually hashed.", "quantifier": "every log, every body, every claimed index and size (all integers), every list of sibling byte strings", "why_tests_cant": "the index and tree size of a proof are attacker chosen integers without any range check in the code", "anchors": ["sigstore/_internal/merkle.py: verify_merkle_inclusion"]}
{"id": "C03", "title": "Every honest inclusion proof is accepted", "statement": "For every log of n entries and every position i < n, the RFC 6962 audit path of entry i together with (i, n) and the log's root is accepted.", "quantifier": "every log and every position in it", "why_tests_cant": "off-by-one errors in the bit arithmetic affect only particular (index, size) shapes; tests use a handful of shapes", "anchors": ["sigstore/_internal/merkle.py: verify_merkle_inclusion, _decomp_inclusion_proof"]}
{"id": "C04", "title": "Inclusion proof length is exact and out-of-range claims", "statement": "An accepted proof has exactly the number of sibling hashes that RFC 6962 prescribes for (index, size) when index < size. The stronger expectation that acceptance implies index < size, or that it pins the index when the claimed size is wrong, is false for this code, with concrete witnesses.", "quantifier": "every index and size, every list of hashes", "why_tests_cant": "absence of a range check is only visible on inputs that no honest log produces", "anchors": ["sigstore/_internal/merkle.py: verify_merkle_inclusion, _decomp_inclusion_proof"]}
{"id": "C05", "title": "A verified checkpoint is signed by a trusted log key and commits to the proof's root", "statement": "If checkpoint verification accepts an entry, then the checkpoint text is a signed note with exactly one blank-line separator, the note body (up to and including its final newline) carries a signature, whose 4-byte hint equals the prefix of the entry's log id, that verifies under a key of the supplied keyring, and the root hash in the body equals the root hash of the inclusion proof.", "quantifier": "every entry, every checkpoint text, every keyring", "why_tests_cant": "the text format is attacker controlled and unbounded; parsing ambiguities are found by proof, not by samples", "anchors": ["sigstore/_internal/rekor/checkpoint.py: verify_checkpoint, SignedCheckpoint.from_text, SignedNote.from_text, SignedNote.verify, LogCheckpoint.from_text"]}
{"id": "C06", "title": "Exceptions of checkpoint verification", "statement": "Checkpoint verification of any entry and any checkpoint text either succeeds or raises VerificationError, except for exactly characterised leaks: a ValueError for non-ASCII text and a binascii.Error for badly padded base64 in a signature line, a ValueError for a non-ASCII root hash line, and whatever non-InvalidSignature exception the cryptographic backend raises. The unqualified claim is refuted with concrete texts.", "quantifier": "every checkpoint text and every keyring", "why_tests_cant": "a parser's exception set ranges over all inputs", "anchors": ["sigstore/_internal/rekor/checkpoint.py: SignedNote.from_text, LogCheckpoint.from_text, verify_checkpoint"]}
{"id": "C07", "title": "Well-formed signed notes parse back to what they were built from", "statement": "For every origin, size, root hash, list of extension lines and non-empty list of signatures (name, hint, signature bytes) in the C2SP signed-note syntax, formatting them as a signed note and parsing the text yields exactly those signatures and that checkpoint, and verification is run over exactly the body bytes.", "quantifier": "every well-formed note, with any number of extension lines and signatures", "why_tests_cant": "the round trip must hold for unboundedly many notes", "anchors": ["sigstore/_internal/rekor/checkpoint.py: SignedNote.from_text, LogCheckpoint.from_text, SignedCheckpoint.from_text"]}
{"id": "C08", "title": "The signed entry timestamp payload is an injective encoding", "statement": "Two log entries whose SET payloads are equal have the same body, integrated time, log id and log index; so a SET issued for one entry cannot be replayed for another.", "quantifier": "all pairs of entries", "why_tests_cant": "collisions of a serialisation are a for-all-pairs statement", "anchors": ["sigstore/models.py: TransparencyLogEntry._encode_canonical, _verify_set"]}
{"id": "C09", "title": "Log entry verification is complete", "statement": "Verifying a log entry succeeds if and only if its inclusion proof verifies, its checkpoint verifies, and, whenever it carries an inclusion promise and a non-zero integrated time, the SET signature verifies over the entry's canonical payload under the keyring.", "quantifier": "every entry and every keyring", "why_tests_cant": "dropping one of the three checks is invisible to any test whose entry passes the others", "anchors": ["sigstore/models.py: TransparencyLogEntry._verify, _verify_set"]}
{"id": "C10", "title": "Keyring verification semantics", "statement": "Keyring.verify succeeds iff the signature verifies under the key registered for the given id when the id is known, and under at least one key of the keyring when the id is unknown (if checking a signature raises nothing but InvalidSignature); a key outside the keyring never makes it succeed; and an empty keyring never succeeds.", "quantifier": "every keyring, key id, signature and data", "why_tests_cant": "quantifies over all keyrings and key ids", "anchors": ["sigstore/_internal/trust.py: Keyring.__init__, Keyring.verify, Key.verify"]}
{"id": "C11", "title": "Keyring construction only drops keys that cannot be loaded", "statement": "Building a keyring from a list of public keys never fails because of a malformed or unsupported key: the resulting keyring holds exactly the keys that load, the last one winning when two have the same id, and the result does not depend on where unloadable keys are in the list.", "quantifier": "every list of trusted-root public keys", "why_tests_cant": "all orders and mixes of supported and unsupported keys", "anchors": ["sigstore/_internal/trust.py: Keyring.__init__, Key.__init__"]}
{"id": "C12", "title": "The signature scheme is fixed by the trusted root", "statement": "Which hash and which padding/curve scheme is used to check a log signature depends only on the key details recorded in the trusted root, never on the signature or data; a key whose declared details do not name a supported scheme, or whose parsed type is not the declared one, never verifies anything.", "quantifier": "every declared key detail, key and signature", "why_tests_cant": "algorithm confusion is a for-all-inputs property", "anchors": ["sigstore/_internal/trust.py: Key.__init__, Key.verify"]}
{"id": "C13", "title": "Validity windows", "statement": "A key or service with a validity window is usable at time t iff start <= t and, unless expired ones are allowed, t <= end when an end is given; no window means always usable; allowing expired ones only ever adds instants; and an instant before the start is never usable.", "quantifier": "every window, every instant, both expiry modes", "why_tests_cant": "boundary conditions over all instants", "anchors": ["sigstore/_utils.py: is_timerange_valid"]}
{"id": "C14", "title": "Trusted root material used for verification", "statement": "The keys and CA certificates a verifier obtains from a trusted root are exactly those whose window has started (expired ones included for verification, excluded for signing), in trusted-root order; it is an error, never an empty set, when no Rekor key, CT key or Fulcio certificate is available.", "quantifier": "every trusted root, purpose and instant", "why_tests_cant": "ranges over all trusted roots and instants", "anchors": ["sigstore/models.py: TrustedRoot._get_tlog_keys, rekor_keyring, ct_keyring, get_fulcio_certs, get_timestamp_authorities", "sigstore/_internal/trust.py: CertificateAuthority"]}
{"id": "C15", "title": "The SCT signed payload is the RFC 6962 structure and is unambiguous", "statement": "The bytes checked against the CT log's signature decode, under an independent RFC 6962 decoder, to exactly the SCT version, timestamp, entry type, issuer key hash, certificate bytes and extensions; equal payloads imply equal fields; certificates of 2^24 bytes or more are refused.", "quantifier": "every SCT, certificate and issuer key id", "why_tests_cant": "unambiguity is a for-all-pairs property", "anchors": ["sigstore/_internal/sct.py: _pack_signed_entry, _pack_digitally_signed"]}
{"id": "C16", "title": "An accepted SCT", "statement": "If SCT verification accepts, the certificate embeds exactly one SCT, the SCT declares SHA-256, its signature verifies under the CT keyring over the RFC 6962 payload, and for a precertificate entry the payload contains the SHA-256 of the issuer's SubjectPublicKeyInfo, where the issuer is the first chain certificate, or the second one if the first is a precertificate-signing certificate, and has an RSA or EC key.", "quantifier": "every certificate, chain and keyring", "why_tests_cant": "ranges over all chains and SCT lists", "anchors": ["sigstore/_internal/sct.py: verify_sct, _get_issuer_cert, _is_preissuer, _get_signed_certificate_timestamp"]}
{"id": "C17", "title": "SCT timestamps survive the float conversion", "statement": "For every SCT timestamp between 2^40 ms (November 2004) and 2^31 s (January 2038) the millisecond value put in the signed payload is exactly the SCT's; outside that range it can be one millisecond too small, which makes a genuine SCT fail to verify.", "quantifier": "every millisecond timestamp in the range (about 10^12 values), under IEEE-754 binary64 round-to-nearest-even", "why_tests_cant": "10^12 values; the first failing value after 2038 has not been seen by any test", "anchors": ["sigstore/_internal/sct.py: _pack_digitally_signed"]}
{"id": "C18", "title": "Certificate classification", "statement": "A certificate is classified as a CA iff it is v3, has critical BasicConstraints with ca set and KeyUsage with keyCertSign; as leaf only if it is v3, is not a CA, has digitalSignature and the code-signing EKU; no certificate is both; a root CA is a CA; inconsistent combinations raise VerificationError.", "quantifier": "every combination of version and extensions", "why_tests_cant": "all extension combinations, including absent ones", "anchors": ["sigstore/_utils.py: cert_is_ca, cert_is_root_ca, cert_is_leaf"]}
{"id": "C19", "title": "SCT issuer must be a CA", "statement": "Expected: an SCT for a precertificate is accepted only if the issuer is a CA certificate. What holds: the issuer's CA classification does not raise. The full expectation is refuted: a certificate classified as not a CA (for example without BasicConstraints) passes.", "quantifier": "every chain", "why_tests_cant": "needs an issuer the tests never build", "anchors": ["sigstore/_internal/sct.py: _cert_is_ca, verify_sct"]}
{"id": "C20", "title": "DSSE pre-authentication encoding is injective", "statement": "Two (payload type, payload) pairs with the same pre-authentication encoding are equal, for all payload types (any Unicode text) and all payloads.", "quantifier": "all pairs of payload types and payloads", "why_tests_cant": "for-all-pairs property on unbounded strings", "anchors": ["sigstore/dsse/__init__.py: _pae"]}
{"id": "C21", "title": "DSSE pre-authentication encoding agrees with the DSSE specification", "statement": "For every payload type in ASCII the encoding equals the DSSE v1 PAE; for payload types with non-ASCII characters it differs, because the length is counted in characters instead of bytes (refuted with a witness, and characterised exactly: equal iff the type is ASCII).", "quantifier": "every payload type and payload", "why_tests_cant": "interoperability for all payload types", "anchors": ["sigstore/dsse/__init__.py: _pae"]}
{"id": "C22", "title": "Envelopes carry exactly one non-empty signature and verification returns the signed payload", "statement": "An Envelope object exists only for envelopes with exactly one, non-empty signature; verification of an envelope returns the payload only if the signature is valid for the given key over the PAE of exactly the returned payload and the envelope's payload type, and otherwise raises.", "quantifier": "every envelope and key", "why_tests_cant": "multi-signature and empty-signature confusion over all envelopes", "anchors": ["sigstore/dsse/__init__.py: Envelope.__init__, _verify, _sign"]}
{"id": "C23", "title": "Statement subject matching", "statement": "A statement matches an artifact iff one of its subjects lists, under sha256, the lowercase hex digest of that artifact; other digest algorithms, names and order of subjects play no role, and for 32-byte digests a match identifies the digest uniquely. Only SHA-256 digests are accepted for matching.", "quantifier": "every statement with any number of subjects and digests", "why_tests_cant": "ranges over all subject lists", "anchors": ["sigstore/dsse/__init__.py: Statement._matches_digest"]}
{"id": "C24", "title": "What an accepted artifact verification guarantees", "statement": "If verify_artifact(input, bundle, policy) returns, then: at least one time is established and every established time comes from a trusted source; the certificate chains to a Fulcio certificate of the trusted root at every established time and is within its validity at every one; its SCT verifies; it has digitalSignature and code-signing; the policy accepts it; the log entry verifies; the bundle's recorded digest, if any, equals the input's SHA-256; the signature verifies over that digest with the certificate's key; and the log entry's body records the same certificate, signature and digest.", "quantifier": "every input (bytes, stream or precomputed hash), bundle, policy, trusted root and behaviour of the cryptographic backend", "why_tests_cant": "removing any one check is invisible to tests that do not violate exactly that check with all others intact", "anchors": ["sigstore/verify/verifier.py: Verifier.verify_artifact, Verifier._verify_common_signing_cert"]}
{"id": "C25", "title": "What an accepted DSSE verification guarantees", "statement": "If verify_dsse(bundle, policy) returns (type, payload), then all the certificate, time, policy and log conditions hold, the bundle contains a DSSE envelope with one signature that verifies over the PAE of exactly the returned type and payload with the certificate's key, and the log entry's body records the payload hash or envelope digest, the signature and the certificate.", "quantifier": "every bundle, policy, trusted root and behaviour of the cryptographic backend", "why_tests_cant": "as for artifacts", "anchors": ["sigstore/verify/verifier.py: Verifier.verify_dsse"]}
{"id": "C26", "title": "A log entry vouches for one artifact only", "statement": "Two accepted artifact verifications whose bundles carry the same canonicalised log body (read as the same entry kind and version) agree on the artifact digest, the signature and the certificate; two accepted DSSE verifications whose bundles carry the same log body agree on the certificate, the signatures and - up to a hash collision - the payload. (No re-use of a log entry for other material, CVE-2022-36056.) That an entry cannot serve both an artifact and an envelope is refuted: it can, when the artifact is the envelope's pre-authentication encoding.", "quantifier": "all pairs of accepted (input, bundle) combinations", "why_tests_cant": "for-all-pairs property", "anchors": ["sigstore/verify/verifier.py: _validate_hashedrekord_v001_entry_body, _validate_hashedrekord_v002_entry_body, _validate_dsse_v001_entry_body, _validate_dsse_v002_entry_body"]}
{"id": "C27", "title": "Trusted time: where signing times come from", "statement": "Every time used to validate the certificate in an accepted verification is either the time of an RFC 3161 timestamp over the bundle's signature that a trusted timestamp authority's certificates verify and that lies in that authority's window, or the integrated time of the log entry, and in the latter case the entry carries an inclusion promise whose SET covering that very time was verified in the same call.", "quantifier": "every bundle, trusted root and backend behaviour", "why_tests_cant": "the time is used before the SET is checked; that all accepting paths check it later is a path property", "anchors": ["sigstore/verify/verifier.py: Verifier._establish_time, Verifier._verify_timestamp_authority, Verifier._verify_signed_timestamp", "sigstore/models.py: TransparencyLogEntry._verify"]}
{"id": "C28", "title": "Timestamp count and duplicates", "statement": "A bundle with more than 32 timestamps, with two equal timestamps, or from which no verified time can be derived is never accepted; unverifiable timestamps never contribute a time; every verifiable one does, in bundle order.", "quantifier": "every list of timestamps", "why_tests_cant": "unbounded list lengths and orders", "anchors": ["sigstore/verify/verifier.py: MAX_ALLOWED_TIMESTAMP, Verifier._verify_timestamp_authority, Verifier._establish_time"]}
{"id": "C29", "title": "Complete bundles are accepted", "statement": "verify_artifact and verify_dsse return whenever all conditions of C24 / C25 hold: no valid bundle is rejected.", "quantifier": "every input, bundle, policy and trusted root satisfying the conditions", "why_tests_cant": "false rejections need inputs nobody thought of", "anchors": ["sigstore/verify/verifier.py: Verifier.verify_artifact, Verifier.verify_dsse"]}
{"id": "C30", "title": "Exceptions of bundle verification", "statement": "Expected from the documentation: on failure verify_artifact raises VerificationError. Refuted: witnesses for leaks of other exceptions. What holds: a complete list of the other exceptions that can escape, each traced to what causes it in this bundle (which field or certificate), this trusted root, this policy, or a backend operation on them.", "quantifier": "every input, bundle and policy", "why_tests_cant": "the exception set ranges over all inputs", "anchors": ["sigstore/verify/verifier.py: Verifier.verify_artifact, Verifier._verify_common_signing_cert, _validate_hashedrekord_v001_entry_body"]}
{"id": "C31", "title": "Identity policy", "statement": "An Identity policy with identity x and issuer y accepts a certificate iff the certificate's issuer extension equals y (no issuer check when y is absent or empty) and x is one of the SAN e-mail addresses or URIs, or equals the raw DER value of a Fulcio other-name read as UTF-8; names of any other kind never match. That the text of a Fulcio other-name matches is refuted: its DER tag and length are compared too, so it never does.", "quantifier": "every certificate, identity and issuer", "why_tests_cant": "ranges over all SAN lists", "anchors": ["sigstore/verify/policy.py: Identity.verify"]}
{"id": "C32", "title": "AnyOf and AllOf combine policies as disjunction and conjunction", "statement": "AllOf accepts iff it has at least one child and all children accept; AnyOf accepts iff some child accepts and every earlier child failed with VerificationError; with children that only raise VerificationError both are exactly conjunction and disjunction, independent of order and for any nesting depth; empty combinations never accept. AnyOf as plain disjunction is refuted for children that raise other exceptions.", "quantifier": "every policy tree of any depth and every certificate", "why_tests_cant": "unbounded nesting", "anchors": ["sigstore/verify/policy.py: AnyOf.verify, AllOf.verify"]}
{"id": "C33", "title": "Certificate extension policies", "statement": "A v1 extension policy accepts iff the extension with its OID is present and its raw value is the UTF-8 encoding of the expected text; a v2 policy iff the value is the DER encoding of that UTF8String. A policy for one OID is never satisfied by another OID's extension. All policy classes use pairwise different OIDs.", "quantifier": "every certificate and expected value", "why_tests_cant": "ranges over all extension values, including malformed DER", "anchors": ["sigstore/verify/policy.py: _SingleX509ExtPolicy.verify, _SingleX509ExtPolicyV2.verify"]}
{"id": "C34", "title": "Bundle well-formedness", "statement": "A Bundle object exists iff its media type is supported, it has the certificate its version prescribes (v0.3: the single certificate; older: the first of the chain, which must be a code-signing leaf, while every other chain certificate must be classifiable), there is exactly one log entry, of kind version 0.0.1 or 0.0.2, with inclusion proof and checkpoint, and it has an inclusion promise or - except in v0.1 - at least one timestamp, all of them decodable. Refuted: that the certificate of a v0.3 bundle is a leaf, that no CA is in the chain (it only warns), and that the content is present.", "quantifier": "every deserialised bundle message", "why_tests_cant": "combination space of optional parts and versions", "anchors": ["sigstore/models.py: Bundle._verify"]}
{"id": "C35", "title": "Bundles made by signing are always v0.3, keep every part, and re-validate", "statement": "A bundle assembled from certificate, content, log entry and timestamps has media type v0.3 and returns exactly those parts; disassembling and re-assembling keeps certificate, content and log entry.", "quantifier": "every certificate, content, log entry and list of timestamps", "why_tests_cant": "round trip over all contents", "anchors": ["sigstore/models.py: Bundle._from_parts, Bundle._to_parts, Bundle.from_parts"]}
{"id": "C36", "title": "fix-bundle keeps what the bundle proves", "statement": "fix-bundle without --upgrade-version leaves a well-formed bundle as it is and otherwise replaces exactly the log entry that has no checkpoint by the one the log returns for its index; with --upgrade-version it keeps certificate, signature content and log entry and writes v0.3. Refuted: that it keeps RFC 3161 timestamps (they are dropped, so bundles without an inclusion promise cannot be upgraded) and that the replacement is the same entry (this is not checked).", "quantifier": "every bundle", "why_tests_cant": "needs bundles with timestamps and all versions", "anchors": ["sigstore/_cli.py: _fix_bundle", "sigstore/models.py: Bundle._to_parts, Bundle._from_parts"]}
{"id": "C37", "title": "Signing then verifying succeeds (caching signer)", "statement": "For every artifact or statement, every sequence of earlier operations of the same caching signer, and honest CA, log and timestamp services, the bundle returned by the signer is accepted by a verifier that trusts those services.", "quantifier": "every input, every history of signer operations, every honest service behaviour", "why_tests_cant": "quantifies over all histories and service answers", "anchors": ["sigstore/sign.py: Signer.sign_artifact, Signer.sign_dsse, Signer._finalize_sign", "sigstore/verify/verifier.py: Verifier.verify_artifact"]}
{"id": "C38", "title": "Signing key and certificate match", "statement": "With caching, every bundle a signer produces, over any history, is signed with the key its certificate certifies. Without caching the expectation is refuted: the CSR and the signature use two independently generated keys.", "quantifier": "every history of operations, both caching modes", "why_tests_cant": "depends on the sequence of key generations", "anchors": ["sigstore/sign.py: Signer._private_key, Signer._build_csr, Signer._signing_cert"]}
{"id": "C39", "title": "Certificate and token lifetime during signing", "statement": "Over any history of operations and clock readings, every certificate request carries the signer's token and is made only if that token was valid at the latest clock reading; a caching signer requests at most one certificate and never signs, requests timestamps or submits an entry unless its certificate had not expired at the latest clock reading. Otherwise ExpiredIdentity or ExpiredCertificate is raised and nothing else happens. Without caching, the lifetime of the certificate just obtained is not looked at (boundary, refuted).", "quantifier": "every history of operations and every clock", "why_tests_cant": "all schedules of clock and operations", "anchors": ["sigstore/sign.py: Signer._signing_cert, Signer.__init__"]}
{"id": "C40", "title": "What is submitted to the log is what is returned", "statement": "For every successful signing operation the entry submitted to the log and the bundle returned contain the same certificate, signature and artifact digest (for statements: the same envelope), the digest being the SHA-256 of the input.", "quantifier": "every input and service behaviour", "why_tests_cant": "relational property over all inputs", "anchors": ["sigstore/sign.py: Signer.sign_artifact, Signer.sign_dsse", "sigstore/_internal/rekor/client.py: RekorClient._build_hashed_rekord_request, _build_dsse_request", "sigstore/_internal/rekor/client_v2.py: RekorV2Client._build_hashed_rekord_request, _build_dsse_request"]}
{"id": "C41", "title": "Timestamp authority failures are tolerated per authority", "statement": "While signing, the failure of any subset of timestamp authorities never aborts signing by itself; the bundle contains exactly the timestamps of the authorities that answered, in order; only missing both timestamps and a promise makes signing fail.", "quantifier": "every number of authorities and every failure pattern", "why_tests_cant": "2^n failure patterns", "anchors": ["sigstore/sign.py: Signer._finalize_sign", "sigstore/_internal/timestamp.py: TimestampAuthorityClient.request_timestamp"]}
{"id": "C42", "title": "Service selection from the signing configuration", "statement": "The services chosen are, for each operator with a currently valid service of a supported API version, the one with the highest version (the last listed in case of ties), in order of first appearance; ALL returns all of them, ANY the first, EXACT n exactly the first n, or a ValueError if there are fewer than n.", "quantifier": "every list of services, versions, selector and instant", "why_tests_cant": "unbounded lists, ties and orders", "anchors": ["sigstore/models.py: SigningConfig._get_valid_services"]}
{"id": "C43", "title": "Signing configuration always yields usable endpoints", "statement": "A SigningConfig that loads has at least one usable log and CA; the API client chosen for each log service matches its major API version; the OIDC issuer is the chosen service's URL or a library error if there is none; forcing a log version restricts the choice to that version. That loading fails only with library errors (an EXACT shortfall is a ValueError) and that an unsupported forced version is reported as such (it is an assertion failure) are refuted.", "quantifier": "every signing configuration and instant", "why_tests_cant": "all configurations", "anchors": ["sigstore/models.py: SigningConfig.__init__, get_tlogs, get_fulcio, get_oidc_url, get_tsas"]}
{"id": "C44", "title": "Streaming digests do not depend on chunking", "statement": "The digest of a stream equals the SHA-256 of all its bytes for every way the stream splits its data into reads (any short reads, any length including 0 and multiples of the buffer size), and equals the digest computed for the same bytes passed directly.", "quantifier": "every byte sequence and every schedule of read sizes", "why_tests_cant": "the schedule of short reads is chosen by the OS", "anchors": ["sigstore/_utils.py: _sha256_streaming, sha256_digest"]}
{"id": "C45", "title": "Rekor lookup by material returns the oldest matching entry", "statement": "When the log answers a search with entries, the entry returned is one of them and none has a smaller integrated time.", "quantifier": "every answer of the log", "why_tests_cant": "all answer lists", "anchors": ["sigstore/_internal/rekor/client.py: RekorEntriesRetrieve.post"]}
{"id": "C46", "title": "Rekor lookup distinguishes 'no entry' from failure", "statement": "Expected: searching for an entry the log does not have returns None. Refuted: because an HTTP error response is falsy, a 404 always surfaces as RekorClientError.", "quantifier": "every HTTP status", "why_tests_cant": "needs the real truthiness of an error response; tests mock it away", "anchors": ["sigstore/_internal/rekor/client.py: RekorEntriesRetrieve.post"]}
{"id": "C47", "title": "Rekor lookup by uuid or index", "statement": "A lookup sends exactly one request to the endpoint of the selector given when exactly one selector is given; both or none is a ValueError. That every valid index can be looked up is refuted: index 0 is rejected.", "quantifier": "every uuid and index", "why_tests_cant": "boundary value of an unbounded domain", "anchors": ["sigstore/_internal/rekor/client.py: RekorEntries.get"]}
{"id": "C48", "title": "Parsing a Rekor v1 response keeps the entry", "statement": "A Rekor v1 response with exactly one entry is turned into a log entry with the same body, times, ids, indices and hashes (hex and base64 decoded); a response with zero or several entries is refused; so what the SET is checked over is what the log sent.", "quantifier": "every response", "why_tests_cant": "field-wise for all responses", "anchors": ["sigstore/models.py: TransparencyLogEntry._from_v1_response"]}
{"id": "C49", "title": "Identity token acceptance", "statement": "An IdentityToken object exists exactly for a token whose audience names the client ('sigstore' by default), with non-null iss, sub, exp and iat, not issued more than 5 s in the future, not expired, not before nbf, and with the identity claim required for its issuer; in_validity_period() holds iff nbf (when present) <= now < exp. Every other token raises IdentityError, except that claims of an unexpected type (a textual exp, a list as iss) leak a TypeError.", "quantifier": "every claim set and clock", "why_tests_cant": "all claim sets", "anchors": ["sigstore/oidc.py: IdentityToken.__init__, IdentityToken.in_validity_period"]}
{"id": "C50", "title": "Which claim identifies the signer", "statement": "For each known issuer the identity is that issuer's designated claim, for unknown issuers 'sub', and without it there is no token object; the federated issuer is the token's connector_id if it has one and the issuer otherwise. Refuted: that the identity is always a text claim (a null claim becomes 'None'), that the issuer is text, and that connector claims are believed only for issuers known to federate.", "quantifier": "every claim set", "why_tests_cant": "all claim sets", "anchors": ["sigstore/oidc.py: IdentityToken.__init__, _KNOWN_OIDC_ISSUERS, IdentityToken.federated_issuer"]}
{"id": "C51", "title": "OAuth redirect handling resists forged callbacks", "statement": "For every sequence of HTTP requests that reach the local redirect server, in every interleaving with the calling thread, the authorization code that is exchanged in the browser flow is the one in the first callback request, and only if that request carries no error and its state equals the random state of this session; later requests change nothing; any other callback ends the flow with an exception. In the out-of-band flow the code is what the user typed and requests have no influence on it. Expected but refuted: the code comes from the browser of the user (the state is handed to whoever fetches the start page first, so a local process can have any code exchanged); a callback without state or code is an IdentityError (it is a KeyError).", "quantifier": "every sequence and interleaving of requests by any local process", "why_tests_cant": "all request sequences", "anchors": ["sigstore/_internal/oidc/oauth.py: _OAuthRedirectHandler.do_GET, _OAuthSession", "sigstore/oidc.py: Issuer.identity_token"]}
{"id": "C52", "title": "One authorisation request per OAuth session", "statement": "Over any sequence of requests and any interleaving of the two threads, at most one authorization URL is sent to HTTP clients and at most one is printed, at most one in total in the browser flow; all carry the state of the session, a redirect URI of the session, and a PKCE challenge that is the unpadded base64url SHA-256 of the verifier sent at token exchange; the redirect URI of the token request is the one in the URL. The URL is the authorization endpoint followed by ? and a query, and the query as text decodes to exactly the parameters response_type, client_id, client_secret, scope, redirect_uri, code_challenge, code_challenge_method and state of the session, each once, with nothing from one value leaking into another. Expected but refuted: every session can write its URL (a client id that has no UTF-8 encoding raises UnicodeEncodeError), at most one URL in total (the flag is tested and set without a lock), and a local process cannot disturb the out-of-band flow.", "quantifier": "every request sequence", "why_tests_cant": "history property", "anchors": ["sigstore/_internal/oidc/oauth.py: _OAuthSession.auth_endpoint, code_challenge"]}
{"id": "C53", "title": "Offline mode never touches the network", "statement": "With offline=True no sequence of trust-root operations performs a network access, and the trusted material is exactly the cached copy of the repository, or the embedded copy if nothing is cached. An online client uses only files that the TUF library names for the target after a successful refresh, and a failed refresh is a TUFError. Expected but refuted: every failure of the TUF library is a TUFError (a failing target look-up escapes unchanged).", "quantifier": "every sequence of operations and every cache state", "why_tests_cant": "history property", "anchors": ["sigstore/_internal/tuf.py: TrustUpdater.__init__, get_trusted_root_path, get_signing_config_path"]}
{"id": "C54", "title": "TUF cache directories of different repositories never collide", "statement": "Two repository URLs that differ after removing trailing slashes use different directories, and the directory name never contains a path separator; that it is always a fresh subdirectory is refuted for the URLs '', '.' and '..'.", "quantifier": "all pairs of URLs", "why_tests_cant": "for-all-pairs", "anchors": ["sigstore/_internal/tuf.py: _get_dirs"]}
{"id": "C55", "title": "Cached trust material is not overwritten by the embedded copy", "statement": "Initialising a TrustUpdater never changes an existing cached artifact or root metadata file, for every file system state, and an offline updater serves the cached artifact if there is one.", "quantifier": "every file-system state", "why_tests_cant": "all states", "anchors": ["sigstore/_internal/tuf.py: TrustUpdater.__init__"]}
{"id": "C56", "title": "CLI verification verifies every input", "statement": "If 'sigstore verify' exits with status 0 then every input file or digest named on the command line was verified with the policy of the command line against its bundle; one failure gives a non-zero status whatever the position of the failing input.", "quantifier": "every list of inputs, flags and file-system state", "why_tests_cant": "all input lists and failure positions", "anchors": ["sigstore/_cli.py: _collect_verification_state, _verify_identity, _verify_github, _verify_common"]}
{"id": "C57", "title": "CLI DSSE verification binds the artifact", "statement": "When the bundle holds a DSSE envelope, CLI verification succeeds only if the payload type is in-toto, the payload parses as a statement, and one subject has the input's SHA-256.", "quantifier": "every bundle and input", "why_tests_cant": "all bundles", "anchors": ["sigstore/_cli.py: _verify_common"]}
{"id": "C58", "title": "CLI identity verification always checks the issuer", "statement": "'sigstore verify identity' accepts only certificates with the given identity and issuer, for every non-empty issuer argument; for an empty issuer argument the issuer is not checked (refuted for all strings). 'sigstore verify github' always requires the GitHub Actions issuer and at least one of identity or repository, and every option given with a non-empty value; an option with an empty value is ignored (refuted for all values).", "quantifier": "every command line", "why_tests_cant": "all argument combinations", "anchors": ["sigstore/_cli.py: _verify_identity, _verify_github", "sigstore/verify/policy.py: Identity"]}
{"id": "C59", "title": "sign and attest never overwrite existing files without --overwrite, and check before writing", "statement": "If any output of 'sigstore sign' / 'attest' exists and --overwrite was not given, the command fails, without any request to a service and without changing any file. In every run without --overwrite, a file that existed at the start keeps its content; in every run at all, a file that is not an output of some input keeps its content (as far as no other process changes it). Expected but refuted: a file created by another process between the check and the write is kept.", "quantifier": "every command line, file-system state, schedule of the signing threads and interference by other processes", "why_tests_cant": "all states and schedules", "anchors": ["sigstore/_cli.py: _sign, _attest, _sign_common, _sign_file_threaded"]}
{"id": "C60", "title": "Every signed input has its own output", "statement": "With the default names, a successful sign or attest leaves, for every input, a bundle for exactly that input in <name>.sigstore.json beside it, and different inputs have different bundles. Expected but refuted: the same for 'sign --output-directory' with equal base names and for 'attest --bundle' with several inputs, where the command reports success although results overwrite each other.", "quantifier": "every list of inputs and every thread schedule", "why_tests_cant": "schedules and path combinations", "anchors": ["sigstore/_cli.py: _sign, _attest, _sign_common, _sign_file_threaded"]}
{"id": "C61", "title": "Parallel signing is schedule independent", "statement": "When the outputs are pairwise distinct and none is an input, then after a successful command every output of every input holds the complete signature, certificate or bundle that signing this input gave, under every schedule of the threads; if the services' answers do not depend on the order of requests, the final file contents do not depend on the schedule; the failure of one job does not damage the outputs of another; the lines printed name exactly the outputs of the inputs after success, and none after a failure; and the jobs can always finish. Expected but refuted: the same without the two conditions (one file for signature and certificate; an output that is another input).", "quantifier": "every interleaving of worker threads", "why_tests_cant": "all interleavings", "anchors": ["sigstore/_cli.py: _sign_common, _sign_file_threaded"]}
{"id": "C62", "title": "file-or-digest arguments", "statement": "An argument denotes the file of that name if there is one; otherwise sha256:<hex of 32 bytes> denotes the SHA-256 digest with those bytes, and every argument that is neither a file nor 'sha256', one character and 64 hex digits makes the command fail with status 2. Expected but refuted: the separator must be a colon, and sha256:<hex> always denotes a digest.", "quantifier": "every argument string", "why_tests_cant": "all strings", "anchors": ["sigstore/_cli.py: _verify_common / file_or_digest argument type"]}
{"id": "C63", "title": "Boolean environment variables", "statement": "Each of the six boolean environment variables is true for y, yes, true, t, on, 1 and false for n, no, false, f, off, 0 in any letter case and for a missing variable; the options they set are true iff given on the command line or so set. Every other text in any of the six breaks every command, also those without the option. That an empty variable counts as not set is refuted: it is an error.", "quantifier": "every string", "why_tests_cant": "all strings", "anchors": ["sigstore/_cli.py: _boolify_env"]}
{"id": "C64", "title": "Key details registry", "statement": "The key-details value derived for a signing key names a scheme whose curve and hash match that key, it is one Rekor v2 accepts, and the prehash for a key is the one used by its details; unsupported keys raise.", "quantifier": "every key type and size", "why_tests_cant": "all key types and sizes", "anchors": ["sigstore/_internal/key_details.py: _get_key_details, _get_prehash"]}
{"id": "C65", "title": "Fulcio responses", "statement": "The CA client returns a certificate exactly when the CA answers the request for this key and token with success and at least two PEM certificates; the first is the certificate, the others its (non-empty) chain. An HTTP error, a missing field or fewer than two certificates is a FulcioClientError. Expected but refuted: other malformed bodies (not JSON, values of the wrong type) are FulcioClientErrors too, and the error message of the CA is reported.", "quantifier": "every response", "why_tests_cant": "all responses", "anchors": ["sigstore/_internal/fulcio/client.py: FulcioSigningCert.post"]}
{"id": "C66", "title": "Timestamp authority client", "statement": "Every failure of a timestamp request (HTTP error status, connection failure, undecodable response) surfaces as TimestampError, and a returned response was decoded from a successful HTTP answer to a request for the given signature. That the timestamp is for the signature is not checked by the client (refuted).", "quantifier": "every response and failure", "why_tests_cant": "all failure kinds", "anchors": ["sigstore/_internal/timestamp.py: TimestampAuthorityClient.request_timestamp"]}
{"id": "C67", "title": "Base64, hex and DER text codecs used in comparisons are lossless", "statement": "The base64, hex and PEM texts used to compare log entries with bundle material are those of RFC 4648 and RFC 7468, are injective and are undone by the decoders the code uses; UTF-8 is written and read exactly as RFC 3629 says. The base64 decoder refuses characters beyond ASCII, and reads a text of base64 letters alone only if it is the text of the RFC, so missing padding is refused. That the decoders accept canonical texts only is refuted: several texts are read as the same bytes.", "quantifier": "every byte string", "why_tests_cant": "all byte strings", "anchors": ["sigstore/_utils.py: base64_encode_pem_cert", "sigstore/verify/verifier.py: _validate_hashedrekord_v001_entry_body"]}
{"id": "C68", "title": "SLSA predicates are validated strictly", "statement": "attest goes on iff the predicate file is a JSON document of the declared predicate type: all required fields, no unknown field (in camel case) at any level, every field null or of its type, and a non-empty URI or a digest set in every resource descriptor. Otherwise it fails before any request and any write; if it succeeds, that document is what every statement carries. Refuted: that a resource may be given by its content (the field cannot be used at all) and that an empty digest set is refused.", "quantifier": "every JSON document", "why_tests_cant": "all documents", "anchors": ["sigstore/dsse/_predicate.py: SLSAPredicateV0_2, SLSAPredicateV1_0, ResourceDescriptor"]}
{"id": "C69", "title": "Token exchange", "statement": "The interactive flow returns a token exactly when the token endpoint answers the request with this session's code, verifier and redirect URI with success and a JSON object that has no error and an access token that is acceptable for this client. A connection failure is a NetworkError; an HTTP error, an error field or an unacceptable token an IdentityError. Expected but refuted: other malformed answers (not JSON, not an object, no token) are sigstore errors.", "quantifier": "every answer of the token endpoint", "why_tests_cant": "all answers", "anchors": ["sigstore/oidc.py: Issuer.identity_token"]}
{"id": "C70", "title": "Issuer discovery", "statement": "The endpoints that an issuer object uses are exactly the two texts in the discovery document at the well-known path below its URL; a failure to connect and a time-out are NetworkErrors and every bad answer is an IssuerError (which, against expectation, is not a sigstore Error). Failures of ambient credential detection are IdentityErrors. Refuted: that no other failure exists (redirect loops and unusable URLs are raised as they are).", "quantifier": "every answer of the discovery endpoint", "why_tests_cant": "all answers", "anchors": ["sigstore/oidc.py: Issuer.__init__, detect_credential"]}
{"id": "C72", "title": "Which identity signs", "statement": "Every run of sign or attest requests at most one certificate, however many inputs it has, and the request bears the token the user chose: the one given by --identity-token; without it the ambient credential, unless disabled; and only then the one from the interactive flow with the given issuer and client. A given or ambient token is used only if it is acceptable for the client id of the command (--oidc-client-id). With an explicit token, or ambient credentials disabled, no ambient credential influences the run. get-identity-token prints the token that sign would use without --identity-token. Expected but refuted: an empty --identity-token is not replaced by another identity.", "quantifier": "every command line, environment, identity provider answer and schedule", "why_tests_cant": "all combinations and all runs", "anchors": ["sigstore/_cli.py: _sign_common, _get_identity, _get_identity_token"]}
{"id": "C71", "title": "Offline verification depends on local data only", "statement": "With --offline, what verify identity and verify github print and their exit status are determined by the command line, the local files (including the TUF cache), the clock and the data shipped with the library: nothing served by a log or a TUF repository makes a difference. Verification of bundles never depends on the log's current answers, online or not. Refuted: that bundle verification with cached trust material needs no network without --offline.", "quantifier": "every pair of worlds that differ in network answers only, every command line", "why_tests_cant": "a relation between pairs of runs, over all network behaviours", "anchors": ["sigstore/_cli.py: _collect_verification_state, _verify_identity, _verify_github", "sigstore/_internal/tuf.py: TrustUpdater"]}
{"id": "C73", "title": "What the commands sign, the commands verify", "statement": "If sign (or attest) succeeds for some files with default output names and with honest services, then verify identity with the certified identity and issuer succeeds for all of these files, at every later time and on every computer that has the files and trusts the services, wherever threads were interrupted.", "quantifier": "every set of input files, options, schedule of the signing threads, honest services, verifying computer and time", "why_tests_cant": "end-to-end over two processes, all schedules and all honest service behaviours", "anchors": ["sigstore/_cli.py: _sign_common, _sign_file_threaded, _attest, _verify_identity, _collect_verification_state"]}
{"id": "C74", "title": "Acceptance does not expire", "statement": "With an unchanged trusted root, the verdict on a bundle, accepting or not, changes only at times when a validity window of the root starts; in particular a bundle accepted once all windows have started is accepted forever, although keys, authorities and its certificate expire. The same holds for the output and status of the verify commands, however long they run. Refuted: that a later start of a window never revokes acceptance.", "quantifier": "every trusted root, bundle, policy, input, pair of times", "why_tests_cant": "all times after acceptance", "anchors": ["sigstore/verify/verifier.py: Verifier", "sigstore/models.py: TrustedRoot", "sigstore/_internal/trust.py"]}
{"id": "C75", "title": "Additions to the trusted root", "statement": "A bundle that is accepted stays accepted when the trusted root gains logs with other key ids, further timestamp authorities at the end, and certificate authorities that do not change the chain found, provided its logs were known by id and every timestamp was vouched for. Refuted: that every addition is harmless.", "quantifier": "every trusted root, extension, bundle and time", "why_tests_cant": "a relation between two trust configurations", "anchors": ["sigstore/verify/verifier.py: Verifier", "sigstore/_internal/trust.py: Keyring, TrustedRoot"]}
{"id": "C76", "title": "Upgraded bundles", "statement": "A bundle that is accepted before fix-bundle --upgrade-version is accepted after it exactly if the transparency log gives it a time; without a log time the upgraded bundle is never accepted. Refuted: that the upgrade makes no rejected bundle acceptable (it discards timestamps that would have caused rejection).", "quantifier": "every bundle, log answer, verifier, policy and time", "why_tests_cant": "composition of two commands over all bundles", "anchors": ["sigstore/_cli.py: _fix_bundle", "sigstore/models.py: Bundle._from_parts", "sigstore/verify/verifier.py: Verifier"]}
{"id": "C77", "title": "An accepted signature was made by the expected person", "statement": "If certificate authorities, timestamp authorities and transparency logs of the trusted root behave honestly and verification of an artifact or envelope against an expected identity and issuer succeeds, then that issuer confirmed that identity to some person, the certificate was issued to that person, and, unless somebody broke the signature scheme or got hold of the person's key while the certificate was valid, the person signed exactly this artifact (this type and payload) before the certificate expired. Refuted for bundles that contain both an envelope and a message signature: the timestamp need not cover the artifact's signature.", "quantifier": "every history of the world with honest services, bundle, artifact or envelope, identity, issuer and time", "why_tests_cant": "quantifies over all histories, including everything an adversary may do", "anchors": ["sigstore/verify/verifier.py: Verifier.verify_artifact, verify_dsse", "sigstore/verify/policy.py: Identity", "sigstore/models.py: Bundle"]}
{"id": "C78", "title": "What is accepted is public", "statement": "If only the transparency logs (CT logs) of the trusted root behave honestly, then for everything that is accepted an entry recording the artifact's digest, the signature and the certificate (the envelope's hashes) is in a tree whose head a trusted log published, unless SHA-256 collides on strings that the tree and the proof exhibit; and the certificate, or the precertificate for the key of an issuer in its chain, was accepted by a trusted CT log.", "quantifier": "every history of the world with honest logs, bundle, policy and time; certificate authorities and signers may be malicious", "why_tests_cant": "quantifies over all logs and all misbehaviour of the other parties", "anchors": ["sigstore/verify/verifier.py: Verifier", "sigstore/_internal/rekor/checkpoint.py: verify_checkpoint", "sigstore/_internal/merkle.py: verify_merkle_inclusion", "sigstore/_internal/sct.py: verify_sct"]}
{"id": "C79", "title": "Signatures for one purpose do not serve another", "statement": "The text that a log signs as promise of inclusion is never the text of a checkpoint, nor the encoding that is signed for an envelope; the data that a CT log signs for a version 1 SCT is neither, and can be a checkpoint only if its origin begins with NUL. Refuted: that a checkpoint can never be the encoding of an envelope.", "quantifier": "all entries, checkpoints, envelopes and SCTs", "why_tests_cant": "distinctness over unbounded encodings", "anchors": ["sigstore/_internal/rekor/checkpoint.py: SignedNote.verify", "sigstore/models.py: TransparencyLogEntry._verify_set", "sigstore/dsse/__init__.py: _pae", "sigstore/_internal/sct.py: _pack_digitally_signed"]}
{"id": "C80", "title": "An instance is used only after the user trusted it", "statement": "An instance for which no root is shipped with the library can be used, online or offline, by whatever command, only if the user has run trust-instance for its URL (up to trailing slashes) before: no other command, no other instance and no answer of the repository makes it usable. trust-instance gives the content of the named file to the TUF library as root of trust and succeeds only if the library refreshed the metadata with it; it refuses a missing file or URL before anything happens; other commands never supply a root that is not shipped. Refuted: that the user's file is used when a root is shipped for the URL (it is ignored without notice).", "quantifier": "every sequence of commands and other activity on a computer, all URLs, repository answers and file contents", "why_tests_cant": "an invariant over all histories of commands", "anchors": ["sigstore/_cli.py: _trust_instance, _get_trust_config", "sigstore/_internal/tuf.py: TrustUpdater", "sigstore/models.py: ClientTrustConfig.from_tuf"]}
{"id": "C81", "title": "update-trust-root reports only updates that happened", "statement": "Without --trust-config, update-trust-root prints its message only if in this run the TUF library refreshed the metadata of the selected instance against the repository, starting from the shipped or stored root, and the trust root has certificate authorities. Refuted: that the message always means an update (with --trust-config nothing is updated).", "quantifier": "all options, repository answers and states of the disk", "why_tests_cant": "all behaviours of repository and disk", "anchors": ["sigstore/_cli.py: _update_trust_root, _get_trust_config", "sigstore/_internal/tuf.py: TrustUpdater"]}
{"id": "C82", "title": "Verifiers can be made from roots with authorities and logs; detached materials are looked up in the first log", "statement": "A verifier can be made from a trusted root exactly if every listed CA parses, some CA's window has started and the root lists a log; otherwise construction fails, with an IndexError (not an error of the package) if only the logs are missing. For detached materials the command asks only the first listed log, by its v1 search: the outcome does not depend on what any other address answers. Refuted: that the log asked is one in force.", "quantifier": "all trusted roots, times, worlds and options", "why_tests_cant": "fixtures have one log", "anchors": ["sigstore/verify/verifier.py: Verifier.__init__", "sigstore/_cli.py: _collect_verification_state", "sigstore/_internal/rekor/client.py: RekorEntriesRetrieve.post"]}
{"id": "C83", "title": "Verifying inputs together is verifying them one by one", "statement": "Without explicitly given bundle, certificate or signature, a verify command succeeds exactly if it has an input and the same command succeeds on each of its inputs alone; so neither the order of inputs nor repetition matters.", "quantifier": "all lists of inputs, worlds and options", "why_tests_cant": "all lists of inputs", "anchors": ["sigstore/_cli.py: _collect_verification_state, _verify_identity, _verify_github"]}
{"id": "C84", "title": "Threads may share a signer", "statement": "When several threads call sign_artifact and sign_dsse on one Signer at the same time, each call returns (or raises) what it would have returned if it had run alone and the clock, the random numbers and the services had given it the same answers; in particular each returned bundle is for the thread's own input, with the log's answer to that thread's own submission, and if the services are honest it verifies. Threads sharing a caching signer generate no further keys and request no further certificates; a thread signs, time-stamps or submits only if the certificate had not expired when it began (it may have expired since, as another thread may already know). A thread that is given enough turns returns, whatever the others do.", "quantifier": "all signers, all lists of operations, all schedules of their steps and all behaviours of clock and services", "why_tests_cant": "interleavings of the steps of any number of threads cannot be enumerated, and tests run with few threads and no control of the scheduler", "anchors": ["sigstore/sign.py:Signer.sign_artifact", "sigstore/sign.py:Signer.sign_dsse", "sigstore/sign.py:Signer._signing_cert", "sigstore/sign.py:Signer._finalize_sign", "sigstore/_cli.py:_sign_file_threaded"]}
{"id": "C85", "title": "Exit status 0 means that the command did its work", "statement": "`sigstore verify identity` ends with status 0 exactly if the command line is well formed, all yes/no environment variables are readable, and every input is verified under the identity and issuer given last on the command line and with the other options as the line and the environment set them; likewise `verify github`; neither changes a file. `sign` and `attest` end with status 0 only if every input was signed and the requested outputs show the result; `get-identity-token`, `trust-instance` and `update-trust-root` only if they printed the chosen token, refreshed from the given root, or refreshed. A malformed command line gives status 2, and an unreadable yes/no variable status 1; then nothing is done or printed.", "quantifier": "all command lines, environments, file systems, histories and schedules", "why_tests_cant": "scripts rely on the exit status; tests run each command with few lines and a clean environment", "anchors": ["sigstore/_cli.py: _parser, main, _sign, _attest, _verify_identity, _verify_github, _get_identity_token, _trust_instance, _update_trust_root, _invalid_arguments", "sigstore/errors.py: Error.log_and_exit"]}
{"id": "C86", "title": "Options take precedence over environment variables, and only documented variables matter", "statement": "The value of an option is the last one on the command line, otherwise that of its environment variable, otherwise its default; a yes/no option is on if it is given or its variable says yes. What a command does depends on the environment only through the variables of its own options that are not given (and the readability of all yes/no variables). Not so: the variables offered for the required options of `verify identity` are of no use, an unreadable yes/no variable of another command makes every command fail, and -v before the command is not counted.", "quantifier": "all commands, command lines and pairs of environments", "why_tests_cant": "combinations of options and variables cannot be enumerated; independence is a statement about pairs of runs", "anchors": ["sigstore/_cli.py: _parser, main, _boolify_env, _add_shared_oidc_options, _add_shared_verify_input_options, _add_shared_verification_options"]}
{"id": "C87", "title": "fix-bundle repairs in place or prints, all or nothing", "statement": "`sigstore plumbing fix-bundle` with status 0 read a bundle from the given file and repaired it (replacing only a log entry without checkpoint by the entry that the public log, or with --staging the staging log, returns for its index); with --in-place the file then holds the result and every other file is unchanged, otherwise the result is printed and no file changes. If it fails, no file changes and nothing is printed. Every repairable bundle is repaired. Not so: the log of the instance given with --instance is asked; an entry with index 0 can be repaired.", "quantifier": "all command lines, file systems, bundles, and answers of the log", "why_tests_cant": "needs all bundles and all failures of the log", "anchors": ["sigstore/_cli.py: _fix_bundle, main", "sigstore/_internal/rekor/client.py: RekorClient.production, RekorClient.staging, RekorEntries.get"]}
{"id": "C88", "title": "The library never ends the process; commands end with status 0, 1 or 2", "statement": "Constructing a verifier, parsing and verifying a bundle, making a signer and signing, constructing identity tokens and issuers, loading trust configurations and using the log clients either return or raise an ordinary exception: no input and no answer of a server makes the library call sys.exit. A command ends with status 0, 1 or 2, and with 0 exactly if it ended normally. This holds if the third-party libraries and the user's policies do not end the process themselves; if such a library exits with status 0, `sigstore verify` reports success for an input that was not verified.", "quantifier": "all inputs, certificates, server answers, command lines and schedules", "why_tests_cant": "needs every error path of every function", "anchors": ["sigstore/_cli.py: main, _invalid_arguments", "sigstore/errors.py: Error.log_and_exit", "sigstore/verify/verifier.py: Verifier", "sigstore/sign.py: Signer", "sigstore/models.py: Bundle, ClientTrustConfig", "sigstore/oidc.py: IdentityToken, Issuer"]}
{"id": "C89", "title": "What leaves the machine when something is signed", "statement": "Signing an artifact discloses its SHA-256 digest and nothing else of it: a sequence of signing operations on other artifacts with the same digests (or on the digests themselves) makes the same requests and returns the same bundles. The identity token goes to the certificate authority and to nobody else, and is not in the bundles: with another token of the same lifetime that the authority answers alike, all other requests and all results are the same. Only the certificate authority, the timestamp authorities and the log of the signing context are asked. An attestation given to a v2 log discloses digests of the signed statement; a v1 log receives the whole statement.", "quantifier": "all libraries, all worlds (clock, key generation, signatures, answers, which may depend on all that happened before), signing contexts, tokens, sequences of operations with and without caching", "why_tests_cant": "Non-interference compares pairs of runs over all possible contents, tokens and servers; a test sees one run and cannot show that nothing else was sent.", "anchors": ["sigstore/sign.py: Signer.sign_artifact, Signer.sign_dsse, Signer._finalize_sign, Signer._signing_cert", "sigstore/_internal/fulcio/client.py: FulcioSigningCert.post", "sigstore/_internal/timestamp.py: TimestampAuthorityClient.request_timestamp", "sigstore/_internal/rekor/client.py: RekorClient.create_entry", "sigstore/_internal/rekor/client_v2.py: RekorV2Client.create_entry", "sigstore/hashes.py: Hashed"]}
{"id": "C90", "title": "Submitting an entry to a log", "statement": "Submitting an entry returns an entry exactly if the log, asked once at its endpoint for new entries, answers with success and a description of that entry; the entry has an inclusion proof with a checkpoint. An error answer is a RekorClientError. The state of a log is what its answer says. Expected but refuted: every failure is a sigstore Error; RekorClientError is none, and a log that cannot be reached raises the network library's exception.", "quantifier": "every log address, request, answer and failure", "why_tests_cant": "all answers of a server", "anchors": ["sigstore/_internal/rekor/client.py: RekorEntries.post, RekorClient.create_entry, RekorLog.get, RekorLogInfo.from_response", "sigstore/_internal/rekor/client_v2.py: RekorV2Client.create_entry", "sigstore/_internal/rekor/__init__.py: RekorClientError"]}
{"id": "C91", "title": "From sign to verify, command line to exit status", "statement": "If `sigstore sign` (or `attest`) exits with 0 and wrote its bundles beside the inputs, then `sigstore verify identity` on the same inputs, with the identity and issuer that the CA certifies, exits with 0 and changes nothing - for any other options and environment variables of the two commands, whatever other processes did to other files meanwhile, whenever and on whatever computer the second command is run - provided that the services are honest and trusted there and that serialised bundles are read back.", "quantifier": "every pair of command lines, environments, file systems, schedules of threads and other processes, clocks and services", "why_tests_cant": "pairs of whole runs with all interleavings, services and clocks", "anchors": ["sigstore/_cli.py: main, _sign, _attest, _sign_common, _verify_identity, _collect_verification_state"]}
{"id": "C92", "title": "Detached signatures and certificates verify", "statement": "If `sigstore sign --signature S --certificate C` exits with 0 for one input, then `sigstore verify identity --signature S --certificate C` on that input exits with 0, although the signature file ends with a newline and holds no log entry - whatever else sign wrote - provided that the CA is honest and trusted and that the log, asked for the entry of that digest, signature and certificate, has one whose inclusion it promised while the certificate was valid.", "quantifier": "every pair of command lines, environments, file systems, schedules, clocks and services", "why_tests_cant": "pairs of whole runs with all interleavings, services and clocks", "anchors": ["sigstore/_cli.py: main, _sign, _sign_file_threaded, _verify_identity, _collect_verification_state", "sigstore/_internal/rekor/client.py: RekorEntriesRetrieve.post", "sigstore/models.py: Bundle.from_parts"]}
{"id": "C93", "title": "Exit status 0 of verify means signed by the expected person and publicly recorded", "statement": "If `sigstore verify identity` exits with 0 and the services of the trusted root it uses behave honestly, then every input on the command line was signed - the file's digest itself, or an in-toto statement with a subject of that digest - before the certificate expired, with the key of a person whom the given issuer confirmed to have the given identity, unless that key leaked while the certificate was valid or the signature scheme was broken. Likewise `verify github` for the workflow named by its options. If only the logs are honest, every input is recorded in a tree whose head a trusted log published.", "quantifier": "every command line, environment, file system, history of the world, bundle file or detached materials, and input (file or digest)", "why_tests_cant": "Tests run the command on a few bundles; they cannot establish that no bundle, option or file layout makes the command succeed for an artifact the person never signed.", "anchors": ["sigstore/_cli.py: main, _verify_identity, _verify_github, _collect_verification_state, _verify_common", "sigstore/verify/verifier.py: Verifier", "sigstore/verify/policy.py"]}
{"id": "C94", "title": "The order of the entries of a trusted root does not matter", "statement": "If two trusted roots list the same transparency logs, CT logs, certificate authorities and timestamp authorities, in whatever order and however often, then a verifier can be made from one exactly if it can be made from the other, it trusts the same certificates, and it gives the same result for every bundle, artifact and policy. This needs: a key id stands for one key with one algorithm, signature and timestamp checks fail only by saying 'invalid', every timestamp authority has a validity window, and chain building does not depend on the order of the trusted certificates. Acceptance (not the exception) is the same even if some timestamp authority cannot be read. Without these conditions the order does matter: of two keys with one id the last counts, an authority without a window stops verification if it comes first; and the log asked for missing entries is always the first one listed.", "quantifier": "all pairs of trusted roots with the same elements, all artifacts, bundles, policies and times, all backends meeting the stated conditions", "why_tests_cant": "tests use one or two fixed trusted roots; the claim is about all reorderings and repetitions of all roots", "anchors": ["sigstore/models.py:TrustedRoot.rekor_keyring", "sigstore/models.py:TrustedRoot.get_timestamp_authorities", "sigstore/_internal/trust.py:Keyring", "sigstore/verify/verifier.py:Verifier._verify_signed_timestamp"]}
{"id": "C95", "title": "The clock may move while something is verified", "statement": "Verification, the choice of signing services and the check of a new signing certificate read the clock many times. If, while a call runs, no validity window of the trusted root starts (for signing services, and for the CT logs a new signing certificate is checked with: none starts or ends), the result is the same as if the clock had stood still, whether it accepts or not. Whatever the clock does, even if it goes backwards, an accepting verification relied only on log keys, CT log keys and timestamp authorities whose window had started when the clock was read during the call, and a new signing certificate was checked only with keys of CT logs whose window was open, and not over, at such a reading. If a window does start meanwhile, the result need not be that of any one moment: a bundle can be accepted that no single moment accepts, and a signing configuration that has a usable log at every moment can be rejected for having none.", "quantifier": "all sequences of clock readings, all trusted roots, signing configurations, bundles, artifacts and policies", "why_tests_cant": "tests freeze or ignore the clock; the claim is about all interleavings of readings and windows", "anchors": ["sigstore/_utils.py:is_timerange_valid", "sigstore/verify/verifier.py:Verifier", "sigstore/models.py:TrustedRoot", "sigstore/models.py:SigningConfig"]}
{"id": "C96", "title": "Which parts of a bundle verification looks at", "statement": "The result of verifying an artifact or an envelope depends only on the signing certificate, on the log entry's kind, version, log id, inclusion proof and body, on the timestamps, on the envelope, on the message signature and on the bytes of the message digest; and on the entry's index, integrated time and promise exactly together, when the entry has a promise and a time other than 0. Two bundles that differ only elsewhere (media type, certificates after the first, name of the digest algorithm, index, time or promise of an entry without a signed time) get the same result, exceptions included. The log id itself is only looked at up to its first four bytes when it is the id of no trusted log: an accepted bundle without a signed time stays accepted with any such id, if checking a signature with a log key raises nothing but InvalidSignature. That the index of an accepted entry is looked at is refuted.", "quantifier": "all environments, parsers, clock readings, verifiers, inputs, policies and pairs of bundles", "why_tests_cant": "The property compares all pairs of bundles; a test changes one field of one bundle.", "anchors": ["sigstore/verify/verifier.py:Verifier", "sigstore/models.py:Bundle", "sigstore/models.py:TransparencyLogEntry._verify", "sigstore/_internal/rekor/checkpoint.py:SignedNote.verify", "sigstore/_internal/trust.py:Keyring.verify"]}
{"id": "C97", "title": "How much cryptographic work a bundle can cause, and in which order", "statement": "Whatever the bundle, verifying it checks a timestamp token at most 32 times per timestamp authority of the trusted root, builds at most 33 certificate chains and checks at most one signature per CT log, two per log and one more; a bundle with more than 32 timestamps, or with one of them twice, causes none of these operations. Each operation uses only the certificates and log keys of the trusted root, the bundle's tokens and signature, and the key of the signing certificate. A signature is checked with a key that belongs to no trusted log only as the very last operation, with the signing certificate's key, and only after at least one chain was built, every chain that was tried was found, and a CT log's and a log's signature were verified. The listed operations are all that matter: with any other cryptography that agrees on them, verification ends the same and performs the same operations.", "quantifier": "all environments (cryptographic oracles, hence all outcomes of the operations), parsers, clock readings, verifiers, inputs, policies and bundles", "why_tests_cant": "A bound on work for every bundle, and an order for every outcome of the operations, cannot be observed on samples.", "anchors": ["sigstore/verify/verifier.py:Verifier", "sigstore/_internal/trust.py:Keyring.verify", "sigstore/_internal/rekor/checkpoint.py:SignedNote.verify", "sigstore/_internal/sct.py:verify_sct", "sigstore/dsse/__init__.py:_verify"]}
{"id": "C98", "title": "One honest witness of the time is enough", "statement": "Let an accepted bundle contain a timestamp from one trusted authority that gives times only to data which existed, or a log promise with a time that verifies only under the keys of logs which are honest about it. If in addition the CA is honest, then the artifact (or envelope) was signed by the person whom the expected issuer confirmed to be the expected identity, no later than the time that witness states, which lies within the certificate's validity. The other timestamp authorities, the other logs, the checkpoints and the CT logs may lie as they like: their statements are additional conditions and never replace the honest one. If the key never leaks, no honest witness is needed at all; if it may leak after the certificate expires, one is needed.", "quantifier": "all crypto oracles, histories of the world, trusted roots, bundles, artifacts, envelopes, identities, issuers, and witnesses", "why_tests_cant": "tests have no dishonest authority or log; that lying services cannot outvote an honest one is a statement about all combinations", "anchors": ["sigstore/verify/verifier.py:Verifier._establish_time", "sigstore/verify/verifier.py:Verifier._verify_common_signing_cert", "sigstore/verify/verifier.py:Verifier.verify_artifact", "sigstore/verify/verifier.py:Verifier.verify_dsse", "sigstore/models.py:TransparencyLogEntry._verify_set"]}
{"id": "C99", "title": "Processes may share the trust cache", "statement": "Several processes (several commands, or programs that use the library) may load trust material from the same directories at the same time. A process that nobody disturbs does what C53 to C55 say. Offline processes whose files are all in the cache do not disturb one another: nothing changes and each ends as it would alone. A file that is in the cache when the processes start is never lost and never replaced by an embedded (older) copy, by any mix of offline and online processes: only the TUF client may replace it. When files are missing, each offline process ends with the cached file or the embedded copy, or as if the file were empty; once all are done the cache holds what the same processes leave one after the other. Not guaranteed: two first runs may disturb one another (one reads the file the other has opened and not written), and a newer file downloaded during a first run may be overwritten by the embedded copy.", "quantifier": "all numbers of processes, repositories, offline or online, all interleavings of their file accesses, all initial file systems, all embedded files, all behaviours of the TUF client (as programs on files), all parsers", "why_tests_cant": "The outcome depends on the interleaving of processes; a test exercises one, and the interesting ones take microseconds.", "anchors": ["sigstore/_internal/tuf.py:TrustUpdater.__init__", "sigstore/_internal/tuf.py:TrustUpdater.get_trusted_root_path", "sigstore/_internal/tuf.py:TrustUpdater.get_signing_config_path", "sigstore/models.py:ClientTrustConfig.from_tuf"]}
{"id": "C100", "title": "Which services a signing command uses", "statement": "A run of sign or attest asks for certificates, timestamps and log entries only services that the trust configuration designated by the options (--trust-config, --instance, --staging, or the default) lists, that are in force at that time, and whose API version the client speaks; a log entry is only ever requested in the format of the version given with --rekor-version, if one is given. No other service can influence the run: in a network in which all other CAs, timestamp authorities, logs and identity providers (other than the one given with --oidc-issuer or, without it, those the configuration lists) answer differently or not at all, the same schedule leads to the same files, the same requests, the same printed lines and the same result, exceptions included.", "quantifier": "all options, file systems, trust configurations, network behaviours, tokens, schedules of the threads and outcomes", "why_tests_cant": "That a service is never contacted or never matters is a statement about all runs and all answers; tests mock the network of one run.", "anchors": ["sigstore/_cli.py:_sign_common", "sigstore/_cli.py:_get_trust_config", "sigstore/_cli.py:_get_identity", "sigstore/models.py:SigningConfig", "sigstore/sign.py:SigningContext.from_trust_config", "sigstore/sign.py:Signer"]}
{"id": "C101", "title": "Threads do not share HTTP sessions", "statement": "When several threads use one signing context, every HTTP session that is used for a transparency log or a timestamp authority is used by one thread and for one service only, and a thread uses one session per service. A request to such a service carries what that service answered to the same thread earlier (cookies and the like) and nothing that was answered to another thread; every request, the first of a session included, carries the service's content type and sigstore's user agent. What such a thread sends and receives therefore depends only on how far it has come, not on what other threads do, and a thread that is given enough turns gets its answers. The exception is the certificate authority, whose client has one session for all threads; threads that share a caching signer never call it.", "quantifier": "all numbers of threads, all programs they run, all answers, and all interleavings of the steps: looking for the session, making it, setting its headers, storing it, reading it, sending, receiving", "why_tests_cant": "Whether two threads share a session depends on the schedule; a test sees a few schedules and usually none in which both threads find no session at the same time.", "anchors": ["sigstore/_internal/rekor/client.py:RekorClient._session", "sigstore/_internal/rekor/client_v2.py:RekorV2Client._session", "sigstore/_internal/timestamp.py:TimestampAuthorityClient._session", "sigstore/_internal/fulcio/client.py:FulcioClient.__init__", "sigstore/sign.py:Signer"]}
{"id": "C102", "title": "Files may change while something is verified", "statement": "Other processes may create, change and remove files while a verify command runs. If the command exits with 0, then for every argument the contents that were read for it - the input once, and then its bundle, or its certificate and signature, once - are verified together under the trust configuration that was read, and the input is reported as OK; nothing else is read, and every content read was the content of that file at a moment during the command. So an input that nobody touches meanwhile has been verified as it is. Files that the command line does not name, directly or as materials of an input, are not accessed and do not matter. If a file disappears between the check and the reading the command fails and reports no input as OK. While the named files stay as they are the command is the one of the other properties. Refuted: after exit status 0 the file is still the one that was verified.", "quantifier": "every command line, every sequence of file systems (one per access), every library and log behaviour", "why_tests_cant": "The windows between the existence checks, the reading of the input and the reading of the bundle cannot be hit systematically by a test.", "anchors": ["sigstore/_cli.py:_collect_verification_state", "sigstore/_cli.py:_verify_identity", "sigstore/_cli.py:_verify_github", "sigstore/_cli.py:_add_shared_verify_input_options", "sigstore/_cli.py:_get_trust_config"]}
{"id": "C103", "title": "An attacker who changes files during verification cannot make it accept what nobody signed", "statement": "Let other processes create, replace or remove any files at any moment while `sigstore verify identity` or `sigstore verify github` runs. If the command still succeeds, and the services of the trust configuration it read are honest, then every argument stood for something the expected signer vouched for: the digest given, or the digest of what was read from the file, was signed (directly or in an in-toto statement about it) before the certificate expired, with the key of a certificate issued to somebody whom the expected issuer had confirmed to have the expected identity. With honest logs only, it is publicly recorded. If nobody touches the input itself, what was signed is the content of the input, whatever happened to the bundle, certificate or signature files. It does not follow that a file which is replaced during the run was signed as it is afterwards.", "quantifier": "all histories of honest services, all command lines, all sequences of file system states, all arguments", "why_tests_cant": "The claim is about every interleaving with every other process and about who held which key; a test sets up one.", "anchors": ["sigstore/_cli.py: _verify_identity, _verify_github, _collect_verification_state", "sigstore/verify/verifier.py: Verifier.verify_artifact, Verifier.verify_dsse", "sigstore/_utils.py: sha256_digest"]}
{"id": "C104", "title": "In-toto statements are read as they were written", "statement": "A payload is accepted as an in-toto statement exactly if it is UTF-8 text of one JSON object (no lone surrogates, no unescaped control characters, nothing around it but white space, nested no deeper than the parser's limit) whose `_type` is the v1 type, whose `subject` is a non-empty list of objects with a `name` (a string or null) and a `digest` (an object of strings whose names are among six SHA-2 and SHA-3 names), whose `predicateType` is a string and whose `predicate`, if any, is an object or null; other members are ignored, and of two members of a name the last counts. What `StatementBuilder` writes for any subjects, any predicate type and any predicate without NaN or infinities is accepted and read as the same statement, so different statements have different bytes, and `attest` never signs a statement about other subjects than meant. A statement names an artifact exactly if the JSON text contains the hex SHA-256 of the artifact as `sha256` of a subject. A statement with any other kind of digest, even beside SHA-256, is refused. It is not true that a predicate is signed as given (NaN becomes null), that only the member names of the specification count, or that a repeated member is refused.", "quantifier": "all byte strings; all statements with any texts, any number of subjects and any predicate of any size and depth below the limit; all parsers with any limits and any treatment of floats", "why_tests_cant": "Acceptance is about every byte string and the round trip about every text in every field, with every escape; tests try a few statements.", "anchors": ["sigstore/dsse/__init__.py: _Statement, Subject, DigestSet, Statement.__init__, Statement._matches_digest, StatementBuilder.build", "sigstore/_cli.py: _sign_file_threaded"]}
{"id": "C105", "title": "Interrupted commands", "statement": "A command may be killed at any time, and what it has done to the file system by then stays. After an interrupted sign or attest, the outputs of each input are untouched, or they are those of one bundle made from this input: complete up to one output that may have been cut off, and untouched after it. No other file has changed; without --overwrite no file that was there has lost its content. A bundle file that can still be read as a bundle is the one that was there before or a whole new one: a bundle that was cut off is never mistaken for another. Running sign again with --overwrite leaves the outputs of an undisturbed run. An interrupted fix-bundle has changed at most the given file, only with --in-place, and left a beginning of the new bundle; a file that can be read is the old bundle or the whole new one. Interrupted offline processes leave the files of the trust cache as they were, or leave an embedded copy where there was none, or an empty file; without an empty file the next process ends as if there had been no interruption. Not guaranteed: with --overwrite or --in-place the old bundle may be lost before the new one is written, and an empty trusted root left in the cache makes all later offline runs for that repository fail, until someone removes it.", "quantifier": "all options, inputs, file systems, services and outcomes, all schedules of the signing threads and all moments at which the command may be interrupted; all numbers of processes that share a trust cache and all their interleavings; all bundles written and all texts accepted as bundles", "why_tests_cant": "The interruption may come at any moment of any schedule, within a write as well as between writes; a test cannot place it at all of them.", "anchors": ["sigstore/_cli.py:_sign_common", "sigstore/_cli.py:_sign_file_threaded", "sigstore/_cli.py:_sign", "sigstore/_cli.py:_attest", "sigstore/_cli.py:_fix_bundle", "sigstore/_internal/tuf.py:TrustUpdater.__init__"]}
{"id": "C106", "title": "Requests go to the configured hosts", "statement": "A URL scheme://host/... determines its scheme and host (the authority: user information, name and port). For every HTTP or HTTPS URL without tabs and line breaks that is configured as certificate authority, certificates are requested at exactly scheme://host/api/v2/signingCert and trust bundles at scheme://host/api/v2/trustBundle, or ValueError is raised for a host the library rejects (never for an ASCII host without brackets). The discovery document of an OIDC issuer is fetched from the host of the issuer, for an ordinary path with any number of trailing slashes at exactly that path followed by /.well-known/openid-configuration. A signing session depends on the answers of the hosts of its configured services only: all other hosts may answer anything, also those whose names begin alike. Every authorization URL that is issued is one of the host and path of the authorization endpoint, with a query that a reader of URLs delimits as intended. Expected but refuted: a path in the CA URL is kept (it is dropped); an authorization endpoint may have a query, as RFC 6749 allows (response_type is then lost); a log URL may end with a slash; the endpoints named by the discovery document belong to the host of the issuer.", "quantifier": "all URLs, all answers of all hosts, all sessions and operations, all runs of the OAuth flow", "why_tests_cant": "the URL grammar has infinitely many shapes, and whether another host could be asked is a statement about all answers", "anchors": ["sigstore/oidc.py: Issuer.__init__", "sigstore/_internal/fulcio/client.py: FulcioSigningCert.post, FulcioTrustBundle.get", "sigstore/_internal/oidc/oauth.py: _OAuthSession.auth_endpoint", "sigstore/_internal/rekor/client.py: RekorClient", "sigstore/sign.py: Signer"]}
{"id": "C107", "title": "Bundles are read as they were written", "statement": "Bytes are accepted by Bundle.from_json as a given bundle exactly when they are the UTF-8 encoding of a JSON text of an object with the members of that bundle (names in camel case or as in Python, bytes in base64, integers and algorithms as the library accepts them, optional members missing or null); otherwise InvalidBundle is raised. For every bundle whose strings are Unicode, whose integers are accepted in decimal and whose algorithms have names, to_json followed by from_json gives the same bundle, with any white space before and after; so different bundles have different texts, and any bundle that was read is unchanged by writing and reading it again. Every bundle made by signing is of this kind if the entry returned by the log is; so what sigstore sign and sigstore attest write next to their inputs is read and accepted by sigstore verify identity under honest services, and after an interruption an output of sign that can be read as a bundle was there before or is the bundle of its input. The text is not determined by the bundle (order, spelling of names, loose base64, ignored and repeated members).", "quantifier": "all byte strings, all bundles, all runs and interruptions of the commands", "why_tests_cant": "the texts of bundles are an infinite language; that writing loses nothing is a statement about all bundles", "anchors": ["sigstore/models.py: Bundle.from_json, Bundle.to_json", "sigstore/dsse/__init__.py: Envelope._from_json, Envelope.to_json", "sigstore/_cli.py: _sign_common, _fix_bundle, _verify_identity"]}
{"id": "C108", "title": "Only what the trust configuration file lists is trusted and used", "statement": "A text is accepted by ClientTrustConfig.from_json as a given configuration exactly when it is a JSON text of an object with the members of that configuration (media type, trusted root with its logs, CT logs, CAs and timestamp authorities, signing configuration with its services and selectors; names in camel case or as in Python, bytes in base64); likewise bytes for TrustedRoot.from_file and SigningConfig.from_file. Other texts raise pydantic's ValidationError, which is not one of the library's errors. If a bundle is accepted by a verifier made from such a text, then every CA certificate used, every key that verified the SCT, the checkpoint or the promise, and every authority that vouched for a time is an element of the lists of that text, with a window that has started; so also for sigstore verify with --trust-config. While sigstore sign and attest run with --trust-config, every request goes to a service that the signing configuration of the file lists, with a supported version and a window that contains the time. A trusted root of media type v0.2 is parsed but refused.", "quantifier": "all texts and byte strings, all bundles, policies and times, all runs and schedules of the commands", "why_tests_cant": "that nothing outside the file is ever relied upon is a universal statement over files, bundles and executions", "anchors": ["sigstore/models.py: ClientTrustConfig.from_json, TrustedRoot.from_file, SigningConfig.from_file", "sigstore/verify/verifier.py: Verifier", "sigstore/_cli.py: _get_trust_config, _sign_common, _verify_identity, _verify_github"]}
{"id": "C109", "title": "Identity tokens and client secrets stay off the disk and off the terminal", "statement": "For a run of the commands sign and attest in which neither --verbose is given nor SIGSTORE_LOGLEVEL says DEBUG: replace the identity token (given, ambient or obtained interactively) and the client secret by others of the same validity that the certificate authority answers alike. Then every file, every line on the terminal, the exit status and every message to anybody but the authority is unchanged; nothing there depends on the secrets. If debugging output is asked for, a token or client secret that was given as an option or in its environment variable is on the terminal in clear. Nothing else asks for it: by default it is off.", "quantifier": "all argument lists and environments that parse, all trees of files, trust roots, services and their answers, interleavings of the signing threads, and pairs of secrets; all runs, also those that fail", "why_tests_cant": "that something is independent of a secret is a statement about pairs of runs, over all secrets and all ways in which a run can fail; a test compares one output with one secret", "anchors": ["sigstore/_cli.py:main", "sigstore/_cli.py:_sign_common", "sigstore/_cli.py:_sign_file_threaded", "sigstore/_cli.py:_get_identity", "sigstore/errors.py:Error.log_and_exit", "sigstore/sign.py:Signer"]}
{"id": "C110", "title": "The text of a log entry names the artifact, the signature and the certificate", "statement": "If an artifact verifies with a bundle, the body of the bundle's log entry is a JSON text which names the SHA-256 digest of the artifact, the bundle's signature and the bundle's certificate in the members where Rekor puts them (spec.data.hash.value, spec.signature.content, spec.signature.publicKey.content in version 0.0.1; spec.hashedRekordV002.data.digest, .signature.content, .signature.verifier in version 0.0.2). The same holds for envelopes (payloadHash, the only signature and its verifier; in version 0.0.2 the digest of the pre-authentication encoding). One body is accepted for one artifact only, whatever version the bundle claims for it. What a signing operation posts to the log names in the same members the digest of its input and the signature and certificate of the bundle that it returns; for a statement the posted envelope text reads back as the envelope of the bundle. With a log whose entries are texts of what was submitted, what is signed verifies. An entry taken from an answer of a log of version 1 has the kind and version that the text of its body gives.", "quantifier": "all texts, JSON values, bundles, artifacts, trust roots, policies, services, keys and behaviours of the libraries' other validation", "why_tests_cant": "Tests use recorded entries. Which other texts are accepted as entries (other orders, spellings, missing or repeated members) and whether any of them lets a bundle verify for something that its text does not name concerns all texts.", "anchors": ["sigstore/verify/verifier.py:verify_artifact", "sigstore/verify/verifier.py:verify_dsse", "sigstore/verify/verifier.py:_validate_hashedrekord_v001_entry_body", "sigstore/verify/verifier.py:_validate_hashedrekord_v002_entry_body", "sigstore/verify/verifier.py:_validate_dsse_v001_entry_body", "sigstore/verify/verifier.py:_validate_hashedrekord_v002_dsse_entry_body", "sigstore/_internal/rekor/client.py:RekorClient._build_hashed_rekord_request", "sigstore/_internal/rekor/client.py:RekorClient._build_dsse_request", "sigstore/_internal/rekor/client_v2.py:RekorV2Client", "sigstore/models.py:TransparencyLogEntry._from_v1_response"]}
{"id": "C111", "title": "What the files themselves say when sigstore verify exits with status 0", "statement": "If sigstore verify identity or verify github is run with --trust-config and without --certificate and --signature and exits with status 0, then the text of the trust configuration contains a trusted root, and for each input there is a bundle file whose bytes are a JSON text in which: the certificate (in certificate.rawBytes or the first of x509CertificateChain) satisfies the given identity and issuer (or the conditions of verify github); there is exactly one log entry; at least one time is witnessed, by a timestamp authority or a log that the text of the trust configuration lists; at each of those times the certificate is one of a certificate authority listed there and its SCT is of a CT log listed there; the entry's body is in the tree of a checkpoint signed by a log listed there, or two different inputs with the same SHA-256 digest can be computed; the body's text names the signature, the certificate and the digest; and the signature in the bundle's text verifies with the certificate's key over the digest of the input, or over the envelope of an in-toto statement whose text has a subject with that digest.", "quantifier": "all file contents, command lines, environments, clocks, keys, hash functions with 32 bytes and behaviours of the cryptographic libraries that do not end the process", "why_tests_cant": "This connects every layer from the command line to the bytes on disk. Tests run it for a few recorded bundles with the public trust root; which other texts lead to status 0 concerns all files.", "anchors": ["sigstore/_cli.py:_verify_identity", "sigstore/_cli.py:_verify_github", "sigstore/_cli.py:_collect_verification_state", "sigstore/_cli.py:_get_trust_config", "sigstore/models.py:Bundle.from_json", "sigstore/models.py:ClientTrustConfig.from_json", "sigstore/verify/verifier.py:Verifier", "sigstore/dsse/__init__.py:Statement"]}
{"id": "C112", "title": "The redirect server lives as long as the login, and leaving it never hangs", "statement": "During an interactive login (identity_token of an issuer) a local HTTP server runs in a second thread. Whatever requests local processes send, and however the two threads are scheduled: as long as the login waits and the server has not failed, a callback can be answered; when the login has its result, or is interrupted, the server is asked to stop, the result cannot be changed by requests that are still answered, and after a bounded number of steps (bounded by the pieces in which one client may send its request) the server thread has ended; after that no request is answered. Expected, but not so: that a login whose server thread has failed ends with an error (it waits for ever), and that leaving takes at most a second (a slow client delays it).", "quantifier": "all interleavings of the two threads, all requests, all sessions, all limits on the number of pieces of a request, including failures of the operating system in the server loop", "why_tests_cant": "The server thread and the login share two flags and an event; tests run one schedule and the lucky ones pass. That no schedule deadlocks in shutdown() or join(), and none stops the server early, concerns all of them.", "anchors": ["sigstore/_internal/oidc/oauth.py:_OAuthFlow.__enter__", "sigstore/_internal/oidc/oauth.py:_OAuthFlow.__exit__", "sigstore/_internal/oidc/oauth.py:_OAuthRedirectServer", "sigstore/oidc.py:Issuer.identity_token"]}
{"id": "C113", "title": "Who may have issued an accepted certificate", "statement": "Verification passes all certificates of the started certificate authorities of the trusted root, roots and intermediates alike, to the X.509 library as trust anchors, and nothing else. So a certificate is accepted only if at every verified time one of them, itself valid then and in the form of an authority, has the name of its issuer and signed it, or if it is listed itself; certificates in the bundle never help. An SCT for a precertificate names the key of such a direct issuer, which must not be a certificate reserved for precertificates. The first listed certificate that fits is taken. Apart from names in the certificate that cannot be represented, and without any certificate in the store, a failed search is a VerificationError. Listing more certificates changes nothing for a signer unless one has the same encoding, or has the name of its issuer and signed it or cannot be read; and the order does not matter if all can be read and no certificate was issued by two of them. Refuted: that the certificates above the issuer are checked (an expired root that signed nothing does not matter); that any addition is harmless; that the rule for precertificate signing certificates is usable (it ends in an IndexError).", "quantifier": "every list of trusted certificates, certificate, time, bundle and policy; every X.509 library of the described form", "why_tests_cant": "acceptance depends on which of arbitrarily many listed certificates with arbitrary names, keys and validities is found first", "anchors": ["sigstore/verify/verifier.py: Verifier._verify_chain_at_time, Verifier._verify_common_signing_cert", "sigstore/_internal/sct.py: _get_issuer_cert", "sigstore/models.py: TrustedRoot.get_fulcio_certs"]}
{"id": "C114", "title": "What the TUF client remembers of a repository", "statement": "The paths that an updater gave for its trusted root and its signing configuration are remembered for the life of the process. Asking the same updater again for the same file gives the same path without touching the network or the disk, whatever others did to the files and whatever other updaters were made or asked in between, as long as fewer than 128 other updaters were asked for that file. What is given is always what this updater itself once determined for this file, never the answer of another updater or the path of the other file. An exception is not remembered: the next call looks again. No more than 128 results are kept per file. Loading a trust configuration makes a new updater each time, so it gives the same result and has the same effects as if nothing were remembered. Refuted: that a path is remembered for ever (after 128 other updaters it is determined again and may differ).", "quantifier": "every sequence of new updaters, calls and outside changes to the file system in one process, every repository and every answer of the TUF library", "why_tests_cant": "the caches are shared by all updaters of a process; what one call returns depends on an unbounded history of other calls", "anchors": ["sigstore/_internal/tuf.py: TrustUpdater.get_trusted_root_path, TrustUpdater.get_signing_config_path", "sigstore/models.py: ClientTrustConfig.from_tuf"]}
{"id": "C115", "title": "What the words of a command line mean", "statement": "A command line is accepted exactly if it follows this grammar, and then it means what the grammar says: options of the main parser, a command, then (for verify and plumbing) options and a subcommand, then options, one uninterrupted group of inputs, and options. An option is given by its name, or by a beginning of exactly one name of the parser that reads it; its value follows an equals sign or is the next word, which must then not look like an option; -v may be repeated in one word; after the first -- every word is an input. No word before -- may abbreviate two options of any parser above. Hence no word is lost: every word that does not begin with a minus sign is a command, an input or the value of an option, and every word after -- is an input. If values are given after an equals sign and inputs after --, every text is taken as it is; then verify identity ends with status 0 exactly if all the given inputs were verified for the given identity and issuer. Any exit status 0 is that of the command that the line names, or a word before -- asks for help or the version, and then nothing is done. Refuted: that an input may have any name without -- (with an input named -h the status is 0 although nothing was verified); that the two forms of giving a value are equivalent; that inputs may be anywhere.", "quantifier": "every list of words, every classification of characters as digits, and every machine, environment and file system for the statements on exit status", "why_tests_cant": "command lines are unbounded lists of arbitrary texts; scripts pass file names and identities that others have chosen, and rely on exit status 0", "anchors": ["sigstore/_cli.py: _parser, main, _add_shared_verify_input_options, _add_shared_verification_options, _add_shared_oidc_options"]}
{"id": "C116", "title": "What the shortest command lines achieve, from their words to the world", "statement": "In an environment that sets no variable whose name begins with SIGSTORE_: (1) 'sigstore sign -- F...' that exits with 0 has signed every input with the public-good instance and the client id sigstore, without overwriting, and the bundles stand beside the inputs; (2) 'sigstore verify identity --cert-identity=I --cert-oidc-issuer=U -- F...' exits with 0 exactly if every input is verified for that identity and that issuer with the public-good instance, online, and it changes nothing; (3) if it exits with 0, the services are honest and U is not empty, then for every input somebody had logged in at U as I, was issued the certificate, and (if they are careful and signatures are unforgeable) signed the input before the certificate ended; (4) 'sigstore verify github --repository=R -- F...' with exit status 0 means the same for a certificate with GitHub's issuer and repository R, and R is not empty; (5) with --trust-config=T before verify, exit status 0 means that every input is a file, and that the texts of T and of the bundle beside the input say what C111 lists; (6) after (1) succeeded, (2) exits with 0 for the same inputs if the services behave honestly and the files are left alone. I, U, R, T and F may be any texts, also ones that look like options. With one variable set, the same words may mean another instance.", "quantifier": "every machine, environment without SIGSTORE_ variables, list of inputs, identity, issuer, repository, file system, schedule of other processes and history of the world", "why_tests_cant": "the composition ranges over arbitrary texts, file systems, schedules and behaviours of services; no test can run it against dishonest or concurrent worlds", "anchors": ["sigstore/_cli.py: main, _parser, _sign, _verify_identity, _verify_github, _collect_verification_state", "sigstore/sign.py: Signer.sign_artifact", "sigstore/verify/verifier.py: Verifier.verify_artifact"]}
{"id": "C117", "title": "The clock of identity tokens is a floating-point number, and that does not matter", "statement": "The code compares the claims of an identity token with the clock as a binary64 number of seconds, to which a leeway of five seconds is added or subtracted with rounding. For every clock from ten seconds after the start of 1970 to February 2106, at microsecond resolution, making an IdentityToken and asking in_validity_period() give exactly the results (value or exception) that exact arithmetic gives, provided that nbf and exp have no fractional part; otherwise the comparison is off by less than one microsecond, in either direction. Expected but refuted: the results are exact for fractional claims too.", "quantifier": "all token texts, payloads (claims of any JSON type and size), client ids and pairs of clock readings in the range", "why_tests_cant": "about 4*10^15 clock values times unbounded claims; rounding errors show up at single values only", "anchors": ["sigstore/oidc.py: IdentityToken.__init__, IdentityToken.in_validity_period"]}
{"id": "C118", "title": "What the verification commands say when they fail", "statement": "When verification of an input fails with an error of sigstore's own, the commands report the input as failed, explain the error and exit with status 1. They ask 'are you using the correct Sigstore instance?' exactly when the certificate of that input has no chain to the trusted certificate authorities at one of the established signing times (the first one for which there is none), whatever the later checks would have said. Refuted: that they ask whenever the certificate belongs to another instance (not if the times come from timestamps), that they ask only then (also for a time outside the validity of a certificate of this instance), and that the error is explained once (twice with --verbose).", "quantifier": "every set of inputs, files, bundles, trust configuration, policy of the two commands; every behaviour of the libraries, provided they do not raise sigstore's CertValidationError themselves", "why_tests_cant": "Tests provoke single failures; that no other failure leads to the question, and that no check before or after hides it, ranges over all bundles and all answers of the libraries.", "anchors": ["sigstore/_cli.py:_verify_identity", "sigstore/_cli.py:_verify_github", "sigstore/_cli.py:main", "sigstore/errors.py:Error.log_and_exit", "sigstore/verify/verifier.py:Verifier._verify_chain_at_time"]}
{"id": "C119", "title": "What the explanations of errors tell", "statement": "When a command ends with an error of sigstore's own, the logged explanation contains what went wrong in the words of the code that noticed: the error's text, for network errors the text of what they were raised from, for credentials refused by GitHub the text of that refusal. It is there character by character, except for errors about bundles, where every line of the text is there in order and only leading blanks may be missing (nothing at all if the text is one line). Whatever a bundle makes the text say, the explanation opens with the advice to upgrade exactly when the bundle is too new, and with the statement that it is malformed exactly when it is malformed. The last line is the advice to use --verbose exactly when the error is not raised again. Limits, with witnesses: the explanation of a failed TUF refresh does not contain the reason; a server that answers with an error status is not explained as a network issue; a malformed token given by the user is explained as an issue of ambient credential detection.", "quantifier": "every exception object of sigstore's error classes, every text (any number of lines, any indentation), every cause and context", "why_tests_cant": "The indentation of the text is removed together with that of the template; that no text loses a visible character or can pass for another kind of error ranges over all texts, which bundles can influence.", "anchors": ["sigstore/errors.py:Error.diagnostics", "sigstore/errors.py:Error.log_and_exit", "sigstore/errors.py:NetworkError.diagnostics", "sigstore/errors.py:TUFError.diagnostics", "sigstore/models.py:InvalidBundle.diagnostics", "sigstore/models.py:IncompatibleEntry.diagnostics", "sigstore/oidc.py:IdentityError.diagnostics"]}
{"id": "C120", "title": "The OK lines name the verified inputs", "statement": "Every line 'OK: t' that 'sigstore verify identity' or 'sigstore verify github' prints to standard error, whatever the outcome of the command, names an input of that command that was verified: for a file, t given to the command again stands for the same file; for a digest, t is the algorithm and the digest in lower-case hexadecimal. A command that succeeds prints such a line for every input. Two inputs that are both files, or both digests, never share a name. The condition is that no argument contains a newline. Limits: a file name with a newline in it forges the line of another file; a file can be named like the text printed for a digest, although its contents have another digest; the text printed for a digest is not accepted as an input.", "quantifier": "all lists of inputs and options, contents of the file system, trust configurations, bundles, policies and outcomes of the libraries", "why_tests_cant": "Tests compare the output for a few file names; that no list of inputs gives a line for something that was not verified ranges over all names, digests and interleavings of success and failure.", "anchors": ["sigstore/_cli.py:_verify_identity", "sigstore/_cli.py:_verify_github", "sigstore/_cli.py:file_or_digest", "sigstore/hashes.py:Hashed.__str__"]}
