# Formal model of sigstore-python in Rocq: design

## Approach

* The model is a set of small, total, computable Gallina functions that follow the Python functions branch by branch.
  Each definition cites the file and lines it models.
* Python exceptions are values: a computation returns `Ok v` or `Raise e`, with `e` ranging over an inductive type of
  exception kinds that mirrors the class hierarchy used by the `except` clauses. Messages are not modelled.
* Bytes are `list byte` (Coq's 256-constructor type); Python `str` is a list of code points (`list N`); times are
  integers (microseconds).
* Cryptography (signature verification, key loading), X.509 parsing and path building, RFC 3161 verification, JSON/pydantic
  parsing, HTTP, the clock and the random generator are explicit parameters ("oracles") of the model; theorems quantify over
  all of them. SHA-256 is also a parameter in the theorems; a concrete SHA-256 is used in a few examples.
* Collision resistance is never assumed globally (that would be contradictory for a 32-byte hash): theorems either assume
  absence of collisions only among the finitely many strings actually hashed, or exhibit the colliding strings.
* Effects (requests, key generation, clock readings) are recorded in histories; what the outside world answers is a function
  of the whole history, so a theorem for every such function covers every behaviour of every service. Threads are
  interleaved by a small-step relation; theorems quantify over every run.
* Each `PropsX.v` starts with the specification vocabulary it uses (independent of the model's helpers), then lemmas, then the
  theorems `Cnn_...`, then concrete `Example`s that meet the hypotheses, then `Print Assumptions`.
* The theorems are tested against wrong programs: `seeded/LOG.jsonl` records each seeded fault, the theorems that then fail,
  and the theorems that were tightened because a fault survived.

## Plan per property

| id | title | model and proof | status |
|---|---|---|---|
| C01 | Inclusion proof binds the entry to its position | Merkle.v against MerkleSpec.v (RFC 6962 MTH and PATH, written as in the RFC). Induction on the tree along the largest-power-of-two split; no-collision hypothesis on the strings hashed. | proved |
| C02 | Accepted inclusion proof implies membership, whatever index and size it claims | Merkle.v. Induction on the chain of hashes walking down the tree; leaf/node domain separation. | proved |
| C03 | Every honest inclusion proof is accepted | Merkle.v. Induction on the tree. | proved |
| C04 | Inclusion proof length is exact and out-of-range claims | Merkle.v. Arithmetic on bit lengths; refuted expectations are computed with SHA-256. | proved |
| C05 | A verified checkpoint is signed by a trusted log key and commits to the proof's root | Checkpoint.v: text model on code points. Inversion of the parser and of keyring verification. | proved |
| C06 | Exceptions of checkpoint verification | Checkpoint.v: exceptions are values; exhaustive inversion plus witnesses. | proved |
| C07 | Well-formed signed notes parse back to what they were built from | Checkpoint.v: C2SP formatter in the specification; induction on lists of lines. | proved |
| C08 | The signed entry timestamp payload is an injective encoding | LogEntry.v: concrete canonical JSON; the text determines the fields (prefix parsing). | proved |
| C09 | Log entry verification is complete | LogEntry.v: iff by inversion; witness for the unauthenticated index. | proved |
| C10 | Keyring verification semantics | Keyring.v: induction on the key list. | proved |
| C11 | Keyring construction only drops keys that cannot be loaded | Keyring.v: induction on the key list. | proved |
| C12 | The signature scheme is fixed by the trusted root | Keyring.v: case analysis over the details table. | proved |
| C13 | Validity windows | Keyring.v (time ranges): linear arithmetic. | proved |
| C14 | Trusted root material used for verification | TrustedRoot.v: filtering of lists; exceptions by induction. | proved |
| C15 | The SCT signed payload is the RFC 6962 structure and is unambiguous | Sct.v: struct packing on bytes against an independent RFC 6962 decoder. | proved |
| C16 | An accepted SCT | Sct.v: iff by inversion. | proved |
| C17 | SCT timestamps survive the float conversion | FloatMs.v: binary64 multiplication, division and rounding on integers; error analysis in Z. | proved |
| C18 | Certificate classification | Cert.v: case analysis. | proved |
| C19 | SCT issuer must be a CA | Sct.v and Cert.v: witness and the weaker statement that holds. | proved |
| C20 | DSSE pre-authentication encoding is injective | Dsse.v: UTF-8 and decimal encodings are prefix-decodable. | proved |
| C21 | DSSE pre-authentication encoding agrees with the DSSE specification | Dsse.v: PAE of the DSSE specification written separately; equal iff the type is ASCII. | proved |
| C22 | Envelopes carry exactly one non-empty signature and verification returns the signed payload | Dsse.v: iff by inversion, round trip with a correct signature scheme. | proved |
| C23 | Statement subject matching | Dsse.v: induction over subjects; hex is injective. | proved |
| C24 | What an accepted artifact verification guarantees | Verifier.v against VerifierSpec.v: one step per check of verifier.py, inverted; conclusions restated from C01, C05, C08, C10, C16, C31. | proved |
| C25 | What an accepted DSSE verification guarantees | Verifier.v against VerifierSpec.v, as C24, with the envelope in place of the message signature. | proved |
| C26 | A log entry vouches for one artifact only | Verifier.v: two accepted verifications with the same body; the compared entry contents determine digest, signature, certificate. | proved |
| C27 | Trusted time: where signing times come from | Verifier.v: induction over timestamps and over authorities. | proved |
| C28 | Timestamp count and duplicates | Verifier.v: induction over the timestamp list. | proved |
| C29 | Complete bundles are accepted | Verifier.v against VerifierSpec.v: converse of C24/C25; honest log entries discharge the inclusion condition by C03, C07. | proved |
| C30 | Exceptions of bundle verification | Verifier.v: exhaustive exception analysis (PropsVerifierErrors.v), leaks by computed witnesses. | proved |
| C31 | Identity policy | Policy.v: iff by case analysis on general names. | proved |
| C32 | AnyOf and AllOf combine policies as disjunction and conjunction | Policy.v: structural induction on policy trees against a boolean semantics. | proved |
| C33 | Certificate extension policies | Policy.v against an independent table of the Fulcio extensions (number and encoding). | proved |
| C34 | Bundle well-formedness | Bundle.v: iff by inversion of _verify; witnesses for refuted expectations. | proved |
| C35 | Bundles made by signing are always v0.3, keep every part, and re-validate | Bundle.v: the constructor functions composed with the accessors. | proved |
| C36 | fix-bundle keeps what the bundle proves | Bundle.v (fix-bundle): case analysis of the loop over entries. | proved |
| C37 | Signing then verifying succeeds (caching signer) | Sign.v + Verifier.v: the bundle made under honest services meets the conditions of C29. | proved |
| C38 | Signing key and certificate match | Sign.v: histories of events; invariant that the cached key is the certified key. | proved |
| C39 | Certificate and token lifetime during signing | Sign.v: invariant over histories of clock readings and requests. | proved |
| C40 | What is submitted to the log is what is returned | Sign.v: inversion of a run; submitted body against returned bundle. | proved |
| C41 | Timestamp authority failures are tolerated per authority | Sign.v: induction on the list of authorities. | proved |
| C42 | Service selection from the signing configuration | SigningConfig.v: specification by sorting-free characterisation (best version per operator); induction. | proved |
| C43 | Signing configuration always yields usable endpoints | SigningConfig.v: iff by inversion. | proved |
| C44 | Streaming digests do not depend on chunking | Hashing.v: streams are arbitrary schedules of read sizes; induction on fuel with a termination measure. | proved |
| C45 | Rekor lookup by material returns the oldest matching entry | RekorClient.v: induction over the answers. | proved |
| C46 | Rekor lookup distinguishes 'no entry' from failure | RekorClient.v: iff by inversion. | proved |
| C47 | Rekor lookup by uuid or index | RekorClient.v: case analysis; index 0 and the empty uuid are witnesses. | proved |
| C48 | Parsing a Rekor v1 response keeps the entry | RekorClient.v: iff by inversion; composition with the SET payload (C08). | proved |
| C49 | Identity token acceptance | Oidc.v: iff by inversion of PyJWT claim checks and of the constructor. | proved |
| C50 | Which claim identifies the signer | Oidc.v: table lookup of the known issuers; witnesses. | proved |
| C51 | OAuth redirect handling resists forged callbacks | Oauth.v: interleaving semantics of two threads and arbitrary requests; invariant by induction on runs. | proved |
| C52 | One authorisation request per OAuth session | Oauth.v, Url.v: same semantics, counting invariant; the URLs are texts, and decoding them again gives the parameters (UrlProofs.v). | proved |
| C53 | Offline mode never touches the network | Tuf.v: recorded network events; induction over operation sequences. | proved |
| C54 | TUF cache directories of different repositories never collide | Tuf.v: injectivity of percent-encoding. | proved |
| C55 | Cached trust material is not overwritten by the embedded copy | Tuf.v: invariant over operations. | proved |
| C56 | CLI verification verifies every input | CliVerify.v: induction over inputs; iff with the library verification of C24/C25. | proved |
| C57 | CLI DSSE verification binds the artifact | CliVerify.v: inversion of the DSSE branch. | proved |
| C58 | CLI identity verification always checks the issuer | CliVerify.v + Policy.v: composition with C31-C33. | proved |
| C59 | sign and attest never overwrite existing files without --overwrite, and check before writing | CliSign.v: small-step interleaving of worker threads and other processes; invariant on written paths. | proved |
| C60 | Every signed input has its own output | CliSign.v: path arithmetic; injectivity of default names. | proved |
| C61 | Parallel signing is schedule independent | CliSign.v: per-job phases (a signing operation is taken in its own steps, SignSteps.v), invariant tying each output to its job; confluence of the final file contents; progress. | proved |
| C62 | file-or-digest arguments | CliVerify.v (argument type): iff by case analysis on the text. | proved |
| C63 | Boolean environment variables | CliEnv.v: iff by case analysis over the accepted words. | proved |
| C64 | Key details registry | KeyDetails.v: case analysis over the registry. | proved |
| C65 | Fulcio responses | Clients.v: iff by inversion. | proved |
| C66 | Timestamp authority client | Clients.v: iff by inversion. | proved |
| C67 | Base64, hex and DER text codecs used in comparisons are lossless | Codec.v: specification on bits (RFC 4648, 7468, UTF-8); induction over groups. | proved |
| C68 | SLSA predicates are validated strictly | Predicate.v: JSON values checked against field tables; CliSign.v for whole runs. | proved |
| C69 | Token exchange | Oauth.v (token endpoint): iff by inversion. | proved |
| C70 | Issuer discovery | Oauth.v (discovery) and Oidc.v (ambient detection): iff by inversion. | proved |
| C72 | Which identity signs | CliSign.v: invariant on the history of a run. | proved |
| C71 | Offline verification depends on local data only | PropsOffline.v: two runs in worlds that agree on local data are equal (non-interference), composed with Tuf.v. | proved |
| C73 | What the commands sign, the commands verify | PropsSignVerify.v: composition of CliSign.v, CliVerify.v, C37 and C60. | proved |
| C74 | Acceptance does not expire | The current time enters verification only through the windows; results at two times are equal unless a window of the root starts between them. Refuted with a second key of the same id. | proved |
| C75 | Additions to the trusted root | Extended roots as a relation on lists (insertion); keyring lookups agree on the ids in use; the specification of C24 transfers. | proved |
| C76 | Upgraded bundles | C36 (what the upgrade keeps) composed with the exact specification of acceptance; refuted part by a bundle with a timestamp before issuance. | proved |
| C77 | An accepted signature was made by the expected person | An arbitrary history of the world (who logged in, who signed what and when, which keys leaked, what existed when); honest services as hypotheses relating signatures that verify to events. From the exact specification of acceptance (C24, C25, C27, C31). | proved |
| C78 | What is accepted is public | Same histories with honest logs only; checkpoint (C05) gives the published head, the inclusion proof (C02) gives membership or a concrete collision; SCT verification (C15, C16) gives the CT entry. | proved |
| C79 | Signatures for one purpose do not serve another | First bytes and final newlines of the encodings; refuted part by a log whose name begins with DSSEv1. | proved |
| C80 | An instance is used only after the user trusted it | Histories of commands on a disk (CliTrust.v on top of Tuf.v), with arbitrary other activity; invariant: as long as the instance was not trusted, its two directories are empty. Uses that directories of different instances are disjoint (C54). | proved |
| C81 | update-trust-root reports only updates that happened | The command as operation on disk and network; its success is traced back to the refresh of the library. | proved |
| C82 | Verifiers can be made from roots with authorities and logs; detached materials are looked up in the first log | Direct, from C14; independence of other addresses by comparing two worlds that agree on one. | proved |
| C83 | Verifying inputs together is verifying them one by one | From the exact characterisation C56. | proved |
| C84 | Threads may share a signer | SignSteps.v writes the operations of sign.py as programs that can be stopped after every observable step (proved equal to Sign.v when run without interruption) and lets any number of them take turns on one history. A logical relation between a program and the same program with answers moved to other moments gives: whatever a thread returns, its operation run alone returns with answers that were given at the time. The theorems of C37, C39 and C40 are lifted through it; the number of steps of a thread is bounded by an inductive measure. | proved |
| C85 | Exit status 0 means that the command did its work | CliMain.v models the parsed command line, the table of options and variables, and main as a relation between command line, environment, file system, history and schedule, and their final values, output and result; the theorems compose the characterisation of parsing with C56, C61, C68, C72, C80 and C81. | proved |
| C86 | Options take precedence over environment variables, and only documented variables matter | has_value is an inductive specification of precedence, proved total and functional and equal to the parser; independence by comparing the runs of two environments. | proved |
| C87 | fix-bundle repairs in place or prints, all or nothing | fix_bundle_command on the file system of CliSign.v; composition with C36 and C47. | proved |
| C88 | The library never ends the process; commands end with status 0, 1 or 2 | Calm.v lists the hypotheses on the libraries; Outcomes.v has one lemma per function of the model saying which exceptions can leave it (an effect analysis: no SystemExit in the library, only statuses 1 and 2 in the commands), with invariants for signing programs and for the threads of the sign command. | proved |
| C89 | What leaves the machine when something is signed | Non-interference: a relation between two runs (equal histories after hiding tokens; equal results) proved for each signing function and by induction for sequences of operations; instances with different contents, different tokens and different worlds. | proved |
| C90 | Submitting an entry to a log | RekorClient.v with the network as a function from requests to answers; characterisations by inversion of the client functions, with the endpoints written out in the specification. | proved |
| C91 | From sign to verify, command line to exit status | Composition through main (CliMain.v) of C85 (what an exit status means) with C73 (round trip of the commands), with the options of both command lines as has_value / last_given say. | proved |
| C92 | Detached signatures and certificates verify | As C91, with the evidence assembled from the two files and the search of the log: base64 with a trailing newline is read back (induction), and the assembled bundle is accepted by the completeness theorem C29. | proved |
| C93 | Exit status 0 of verify means signed by the expected person and publicly recorded | PropsGenuine.v: C85 (exit status) composed with C77/C78 (authenticity): input_genuine turns the evidence of an input - a bundle file, or detached materials completed by the log - into a bundle made of existing parts; the policy gives identity and issuer (or the GitHub conditions). Examples: the honest world of PropsAuthentic.v behind a command line, for both commands. | proved |
| C94 | The order of the entries of a trusted root does not matter | PropsOrder.v: `same_elements`, `same_root`, and the conditions `ids_identify`, `checks_cleanly`, `stamps_cleanly` are written down over the trusted-root messages. With distinct ids the registered keys of a keyring are exactly the usable messages, hence a set; the loop over the timestamp authorities finds a voucher iff there is one; then every step of verification is shown equal. Witnesses show the order mattering when an id is repeated, when a window is missing, and for the URL of the log. | proved |
| C95 | The clock may move while something is verified | Clock.v models the functions that read the clock once more, as computations over a stream of readings; PropsClock.v proves by structural induction that they give the result of the model with one reading while no window starts (refinement), that with any stream an accepting call relied on started windows only, and gives witnesses for both directions when windows start during the call. | proved |
| C96 | Which parts of a bundle verification looks at | PropsIgnored.v: same_checked relates two bundles that agree on the parts listed in the property; equality of the results is proved by unfolding each step of verification; that an unknown log id with the same first four bytes is as good as the right one follows from the C10 theorems about the keyring. | proved |
| C97 | How much cryptographic work a bundle can cause, and in which order | Ops.v models verification once more as computations that also yield the list of cryptographic operations in order; PropsOps.v proves that the results are those of Verifier.v, and bounds, classifies and orders the operations by structural induction over the loops. | proved |
| C98 | One honest witness of the time is enough | `PropsWitness.v`, over the histories of C77. `honest_tsa` and `honest_promises` are about one authority and one log key; `honest_witness` says that the bundle contains a token or a promise from such a service. Proved from the specification of acceptance (`VerifierSpec.v`): a token some trusted authority vouches for always contributes its time, every contributed time is checked against the certificate, hence the honest one is. `C98_refines_C77` shows that the hypotheses of C77 imply those of C98; two examples have a lying log or a lying authority (C77 says nothing about them); `C98_no_witness_refuted` has neither and fails. | proved |
| C99 | Processes may share the trust cache | `TufShared.v` models the same functions as `Tuf.v` once more, as programs whose steps are single file accesses (`Path.exists`, opening for writing, writing, reading); `exec` interleaves any number of them by any schedule. The TUF client is a record of arbitrary programs. `C99_alone` is a refinement: an undisturbed run has the result and the files of `from_tuf` in `Tuf.v`. The others are invariants over schedules: programs that only look (`C99_populated_cache`), programs whose writes to existing locations come from the TUF client (`C99_no_rollback`), and for first runs an invariant with the locations each process knows to exist and the writes that are pending (`C99_first_run`, `C99_settled`: equal to the sequential composition). The race is proved for every repository with embedded files (`C99_first_run_race_refuted`). Not modelled: partial writes and reads (a read during a write may also see a prefix), and directories. | proved |
| C100 | Which services a signing command uses | `PropsServices.v`. `permitted` classifies the events of a run by `offered`, stated with the list of services of the configuration and `eligible` of C42 only. Proved as an invariant over all schedules: the context holds offered services (from C42, C43), every program of `SignSteps.v` with such a context emits only permitted events (`only`), and so does every phase of every job. The second half is a simulation: `elsewhere` replaces the whole network; programs that agree on offered services are equal step by step (`peq`), and so are the runs. | proved |
| C101 | Threads do not share HTTP sessions | Sessions.v: the sessions in existence, the thread-local attribute of each client as each thread sees it, and each thread's place inside the property `_session` and the post; `run` lets threads take turns in any order. Threads are arbitrary strategies and answers arbitrary functions of what a thread has seen. PropsSessions.v: an invariant (every session has one owner; what it remembers is what its owner was answered) gives privacy; a simulation of each thread by a machine that runs alone gives isolation. The certificate authority's shared session is a refuted instance, and C84 shows that caching signers never reach it. | proved |
| C102 | Files may change while something is verified | VerifySteps.v: the verify commands access by access (`is_file`, open and read) in the order of the code, with the short circuits of its conditions; the file system is an arbitrary function of the number of accesses made. PropsVerifySteps.v: inversion of successful runs into the list of contents read (accepted), a structural characterisation of the programs (`prog`) from which locality, truth of the answers and the effect of failed reads follow by induction, and a step-by-step comparison with CliVerify.v for constant file systems (unchanged). | proved |
| C103 | An attacker who changes files during verification cannot make it accept what nobody signed | PropsVerifyRace.v: composes C102 (what was read is what was verified, for every sequence of file system states) with the history of PropsAuthentic.v. The hypotheses about existing materials and honest services speak of what the command read, not of a fixed file system. The example is a run during which the input is replaced and a second bundle appears. | proved |
| C104 | In-toto statements are read as they were written | `JsonText.v` models how JSON text is written and read (strings with escapes and surrogate pairs, integers, words, nested arrays and objects, dict semantics of objects; limits and floats are parameters), `StatementJson.v` the pydantic model of statements with aliases. `PropsJsonText.v` states the grammar of RFC 8259 as inductive relations and proves by mutual induction that the reader accepts exactly its texts (sound and complete, hence unambiguous), and by nested induction that what is written is read back. `PropsStatement.v` states the accepted statements relationally over that grammar and proves the equivalence, the round trip and what a digest match means in terms of the text. Witnesses refute three expectations. | proved |
| C105 | Interrupted commands | CliCrash.v: the file systems in which a command can be left, as relations (`sign_moment`, `attest_moment`, `fix_moment`): those after any schedule of the jobs, finished or not; for the trust cache these are the results of `exec` (TufShared.v) under any schedule. PropsCrash.v extends the invariant of the jobs by what it does not say of outputs still to come and of failed jobs. JsonPrefix.v proves that no proper prefix of the text of a JSON object is a JSON text, which gives that cut-off bundles cannot be read; PropsCrashCache.v uses the invariant of PropsTufShared.v. The end of a command is shown to be one of the moments. | proved |
| C106 | Requests go to the configured hosts | Url.v models urlsplit, urljoin and urlencode. PropsUrl.v: the parts of a URL by the grammar of RFC 3986 (`address`), uniqueness, exact results of the joins the code makes, and non-interference of all other hosts via C89. | proved |
| C107 | Bundles are read as they were written | BundleJson.v: concrete readers and writers for all messages of a bundle, over JsonText.v. PropsBundleJson.v: a relation between bytes and bundles by the members of JSON objects (`bundle_of`), equivalence with the reader, round trip by computation on the written object, reading only yields Unicode strings (induction on the grammar), and the resulting instances of C73, C104 and C105. The reader was tried in a scratch copy on the bundles of /repo/test/assets: it reads all of them that were tried (17), also those that sigstore rejects later. | proved |
| C108 | Only what the trust configuration file lists is trusted and used | TrustJson.v: concrete readers for trusted roots, signing configurations and client trust configurations, over JsonText.v and BundleJson.v. PropsTrustJson.v: relations between JSON objects and messages by their members, equivalence with the readers, and a lifting of C24, C25 and C100 (what acceptance rests on; which services are asked) from messages to elements of the lists of the text. The readers were tried in a scratch copy on the trusted roots, signing configurations and trust configurations of /repo/test/assets and /repo/sigstore/_store: they read all but the two with a bad media type. | proved |
| C109 | Identity tokens and client secrets stay off the disk and off the terminal | Terminal.v: log levels, the text of the parsed arguments, and what sign and attest say in each step, over the interleaving semantics of CliSign.v. PropsTerminal.v: two runs with different secrets are related step by step (equal trees, phases, public histories and lines); C109_sign_run and C109_attest_run tie the extended semantics to that of CliSign.v in both directions; C109_verbose_reveals shows the exception (finding). | proved |
| C110 | The text of a log entry names the artifact, the signature and the certificate | EntryJson.v reads entry bodies from their JSON text with the readers of BundleJson.v and TrustJson.v, and writes the JSON of requests. Each reader is proved equivalent to a relation between JSON values and contents that does not mention it; from it, paths into the JSON value are derived. C26, C37 and C40 then give the properties for texts. | proved |
| C111 | What the files themselves say when sigstore verify exits with status 0 | PropsFiles.v: no new model. The specification follows paths into the JSON values of the bundle, entry and trust configuration texts; the theorems for commands combine C85 (status 0 means that every input is verified) with the readers of C107, C108 and C110 and the characterisations C24 and C25 of acceptance. A machine whose files are written texts (one artifact bundle, one statement bundle, two commands) is computed. | proved |
| C112 | The redirect server lives as long as the login, and leaving it never hangs | OauthServer.v: the two threads as a transition system. One side is the with statement of identity_token (enter, body, shutdown, wait for the event, join), the other the loop of socketserver with its request flag and its event, and the handler of Oauth.v. Proved with an invariant of all reachable states and a rank that decreases with every step once the flag is set; deadlock-freedom by cases; every run projects to a run of Oauth.v, so C51 and C52 apply. | proved |
| C113 | Who may have issued an accepted certificate | Chain.v: what the code passes to the path search of the X.509 library, and that search (leaf checks, trust anchors, candidates by name in store order, first success wins, depth limit), with abstract predicates on single certificates. PropsChain.v: exact characterisation of the chains found by induction on the list of candidates, consequences for acceptance via C24, and the hypotheses of C75 and C94 about the oracle derived from conditions on the listed certificates; three refutations. | proved |
| C114 | What the TUF client remembers of a repository | TufCache.v: a process with its updaters and the two caches of functools.lru_cache (most recently used first, 128 results, exceptions not kept), and events that make updaters, ask them or change files. PropsTufCache.v: an invariant (keys are distinct, exist and are at most 128) by induction over the events; a remembered result stays behind only results asked for since, so dropping it needs 128 different others; a new updater is not among the keys, hence the equality with from_tuf of Tuf.v. | proved |
| C115 | What the words of a command line mean | CliWords.v: the option tables of _parser and the algorithm of argparse (classification of every word by every parser, then one pass from left to right). CliWordsSpec.v: names of options by what they do, and a grammar of command lines as inductive relations that do not mention the algorithm. PropsCliWords.v: both directions by induction on the words; consequences by induction on the grammar; the statement on verify identity combines it with C85. | proved |
| C116 | What the shortest command lines achieve, from their words to the world | PropsPlain.v: the words of three command lines, their meaning as explicit argument records, and proofs that the grammar of C115 and the defaults give exactly these records when no variable of the program is set; then composition with C85, C91 and C93. | proved |
| C117 | The clock of identity tokens is a floating-point number, and that does not matter | OidcFloat.v: the clock of IdentityToken and PyJWT as doubles (fractions produced by correct rounding to 53 bits, FloatMs.v), the leeway added with rounding, and comparisons of JSON numbers with doubles. PropsOidcFloat.v: relative error bounds show that the order against whole seconds is never changed, and that whole seconds are met exactly; equality with the model of Oidc.v follows. | proved |
| C118 | What the verification commands say when they fail | CliHint.v has the loops of the two verification commands with what they log: the question about the instance, the failed input and the explanations (text not modelled). PropsHint.v: unchained says in terms of the established times of C27 and of chain building when a certificate has no chain; CertValidationError is raised exactly then, by going through every function after and before the chains; erasing what is logged gives the loops of CliVerify.v; the question is asked iff an input is reported as failed whose bundle is unchained; explanations are counted. Assumes that no library raises sigstore's own CertValidationError. Refuted with concrete worlds: asked whenever / only when the bundle comes from another instance. | proved |
| C119 | What the explanations of errors tell | Diagnose.v has exception objects (class, text, cause, context), the diagnostics methods with their texts, textwrap.dedent and the logged message. PropsDiagnose.v: reason says whose words explain an error, lines_of/less_indented/reads say that a text is there up to indentation; dedent is proved to remove a common prefix of blanks only, for any number of lines; first characters tell the two bundle errors apart. Witnesses refute that the reason of a failed refresh is told and that every failed download is called a network issue. | proved |
| C120 | The OK lines name the verified inputs | Report.v has str(Path), Hashed.__str__ and the text of the printed lines. PropsReport.v: lines of a text as in NoteText.v, the name of an input stated with denotes and base16; that a printed path read again is the same path is proved by splitting and joining at slashes; attribution by induction over the loop of the command. | proved |

Refuted expectations are theorems whose names end in `_refuted`: the English statement of the property says that the expectation fails, and the theorem exhibits a concrete run (or, where possible, shows failure for all runs of a class). They are part of a proved property, beside the positive theorems that say what holds instead.

## Files of the model

| file | contents |
|---|---|
| Base.v | Common vocabulary of the model: byte strings, Python text, exceptions as values, and Python-like list helpers. Nothing in this file is specific to sigstore-python except the exception hierarchy. |
| Codec.v | Text and byte codecs of the Python standard library (and the PEM writer of `cryptography`) used by sigstore-python: hex, base64, decimal integers, UTF-8, PEM, big-endian integers. These are third-party functions; they are modelled concretely because verification compares their outputs. |
| Sha256.v | A concrete SHA-256 (FIPS 180-4), the model of `hashlib.sha256(b).digest()`. The theorems of this development quantify over an arbitrary hash function with 32-byte output; this one shows that the quantification is inhabited by the real function and is used in the examples. |
| Messages.v | Message and object types shared by the model. They stand for the pydantic classes of `sigstore_models` / `rekor_types` (third party) and for the objects of `cryptography`, reduced to the fields sigstore-python reads. |
| Merkle.v | Model of `sigstore/_internal/merkle.py`. |
| Env.v | Third-party functionality used by sigstore-python, as explicit parameters ("oracles"). Every theorem quantifies over all environments, so nothing is assumed about them beyond what a theorem's hypotheses say. |
| Keyring.v | sigstore/_internal/trust.py (keys and keyrings) and the helpers of sigstore/_utils.py it uses. |
| PyText.v | Python `str` operations used by the checkpoint parser and elsewhere. |
| IntText.v | What Python's `int` reads from a text, as a grammar, and that `PyText.py_int` reads exactly that. |
| Checkpoint.v | sigstore/_internal/rekor/checkpoint.py |
| NoteText.v | Specification: the lines of the body of a signed note. Python's `text.strip().split("\n")` (checkpoint.py) is described without computing it. |
| LogEntry.v | sigstore/models.py: `TransparencyLogEntry` (construction and verification). |
| Cert.v | sigstore/_utils.py: certificate classification. |
| FloatMs.v | The float arithmetic of `int(timestamp.timestamp() * 1000)` (sct.py:114): IEEE 754 binary64 with round-half-even, for the magnitudes a `datetime` can have (no overflow, no subnormal). A positive double is `m * 2^u`. |
| Sct.v | sigstore/_internal/sct.py |
| Dsse.v | sigstore/dsse/__init__.py and sigstore/hashes.py |
| CodecMore.v | Further facts about the codecs of Codec.v. |
| Policy.v | sigstore/verify/policy.py |
| KeyDetails.v | sigstore/_internal/key_details.py |
| TrustedRoot.v | sigstore/models.py: `TrustedRoot`; sigstore/_internal/trust.py: `CertificateAuthority`. |
| Hashing.v | sigstore/_utils.py: digests of inputs. |
| Bundle.v | sigstore/models.py: `TimestampVerificationData`, `VerificationMaterial`, `Bundle`; sigstore/_cli.py: `_fix_bundle`. |
| Verifier.v | sigstore/verify/verifier.py |
| SigningConfig.v | sigstore/models.py: `SigningConfig`, `ClientTrustConfig`; sigstore/sign.py: `SigningContext` |
| Json.v | Python values produced by a JSON parser. |
| Oidc.v | sigstore/oidc.py: `IdentityToken` |
| Http.v | `requests` and the dynamic Python operations applied to decoded JSON. |
| RekorClient.v | sigstore/_internal/rekor/client.py and client_v2.py; sigstore/models.py: `_from_v1_response` |
| Url.v | URLs: what sigstore-python uses of Python's `urllib.parse`, as the clients and the OAuth flow call it (fulcio/client.py:181-199, oidc.py:250-252, oauth.py:161, 173, 225). A model of CPython's code, which is not part of the repository. |
| Clients.v | sigstore/_internal/fulcio/client.py and sigstore/_internal/timestamp.py |
| Sign.v | sigstore/sign.py: `Signer`; the effects of a signing operation are recorded in a history. |
| SignSteps.v | sigstore/sign.py: signing operations as sequences of observable steps. `Sign.run_op` runs an operation from beginning to end. A `Signer` may be shared by threads, and then the steps of several operations alternate. Here the operations of Sign.v are written as programs that can be stopped after each step; `exec`, which runs a program without interruption, gives back the definitions of Sign.v (PropsSignThreads.v, `exec_op`). |
| Oauth.v | sigstore/_internal/oidc/oauth.py and `Issuer` of sigstore/oidc.py: the interactive OAuth flow. Two threads are involved: the caller of `Issuer.identity_token` and the redirect server, which handles requests one at a time. They share the session and the server object. |
| OauthServer.v | sigstore/_internal/oidc/oauth.py: how long the redirect server lives (`_OAuthFlow`, oauth.py:104-135, and the `with` statement of oidc.py:299-330). The two threads of Oauth.v run inside the server loop of the standard library (socketserver.py `BaseServer.serve_forever` and `shutdown`) and inside the `with` statement. Not modelled: time. The socket of a connection has a timeout of one second (oauth.py:139-140), so that a client which sends nothing ends its connection, here a step that is always possible. |
| Chain.v | How the certificate chain of a signer is found (verifier.py:250-281). The code hands everything to `cryptography.x509.verification`; elsewhere in this model that call is the oracle `e_chain`. Here the call itself is modelled: what the code passes (the certificates of the trusted root as store, the time, no further certificates), and the path search of the library. The library is written in Rust and is not part of /repo; its algorithm (version 44 and later, `cryptography-x509-verification`, `ChainBuilder`) is modelled from its documentation. What it asks about single certificates (names, signatures, extension policies, name constraints) stays abstract, in the record `PathLib`. |
| TufCache.v | tuf.py:131 and 154: `functools.lru_cache` on the two methods of `TrustUpdater`. The decorator is applied in the class, so there is one cache per method and process, shared by all updaters; the key is the updater itself, compared by identity. A cache holds its keys, so an identity is not used again while it is in a cache; here identities are numbers that are never used again. Modelled for one thread. |
| CliWords.v | sigstore/_cli.py: from the words of the command line (`sys.argv`1:``) to the options, values and inputs of CliMain.v. The parsers are those of `_parser`; how they divide the words is a model of `argparse` of the standard library (CPython 3.11.10), restricted to what `_parser` uses: options without value, options with one value, one optional last positional argument, and subcommands. |
| Tuf.v | sigstore/_internal/tuf.py, `ClientTrustConfig.from_tuf` of sigstore/models.py and `read_embedded` of sigstore/_utils.py. A file system is a map from locations to file contents. Directories are not represented: creating one, and reading or writing a file, does not fail for reasons of permissions or space. |
| TufShared.v | sigstore/_internal/tuf.py and `ClientTrustConfig.from_tuf` of sigstore/models.py once more, as processes that share the directories: every access to a file is one step, and the steps of several processes (several commands, or programs that use the library) alternate in any order. Paths, file systems, names and directories are those of Tuf.v. |
| CliVerify.v | sigstore/_cli.py: `sigstore verify identity` and `sigstore verify github`. The file system does not change while a command runs (VerifySteps.v lifts this), and contains files and nothing else (directories are where no file is). Arguments are given as the values of the options; `argparse` itself is represented by its effect: a refused argument ends the program with status 2. |
| Predicate.v | sigstore/dsse/_predicate.py: the pydantic models of SLSA predicates, as checks of a JSON value (`model_validate` on what `json.load` returns). Class fields have their camel-case names (`alias_generator=to_camel`, `extra="forbid"`, _predicate.py:65-70). |
| CliSign.v | sigstore/_cli.py: `sigstore sign` and `sigstore attest`. The file system is a tree of files and directories without links; `..` is resolved lexically, permissions and full disks are not represented. Threads take turns: a job digests its input in one step, takes the steps of a signing operation one at a time (SignSteps.v), opens an output in one step and writes any number of bytes in one step. Other processes may change the file system at any time between. Printing is reduced to the lines that name the outputs. |
| CliEnv.v | sigstore/_cli.py: boolean environment variables and the options they set. |
| CliTrust.v | sigstore/_cli.py: `sigstore trust-instance`, `sigstore plumbing update-trust-root` and `sigstore get-identity-token`, which complete the commands of CliVerify.v, CliSign.v and Bundle.v (fix-bundle). |
| CliMain.v | sigstore/_cli.py: the options of all commands with their environment variables (`_parser`), and `main`, which runs a command and determines the exit status. A `Line` is a command line that has been divided into options, values and positional arguments; how `argparse` does that, and `--help` and `--version`, are in CliWords.v. |
| Calm.v | Third parties that do not end the process: what the theorems about the exit status assume about the libraries, the network and the objects they return (PropsCliMain.v, PropsCliVerify.v, PropsExit.v). |
| Outcomes.v | Which exceptions leave the functions of the model: nothing in the library ends the process, and the commands end it with status 1 or 2. |
| Clock.v | Verification and service selection with a clock that moves: every call of `datetime.now` at _utils.py:366 is a reading of its own. Verifier.v, TrustedRoot.v and SigningConfig.v use one reading for a whole call; PropsClock.v relates the two. |
| Ops.v | Verification together with the cryptographic operations that it performs, in order: signature checks, checks of timestamp tokens and constructions of certificate chains. Verifier.v has the results only; PropsOps.v relates the two. |
| Sessions.v | The HTTP sessions behind the clients of a signing context, used by several threads: sigstore/_internal/rekor/client.py, client_v2.py, sigstore/_internal/timestamp.py and sigstore/_internal/fulcio/client.py. |
| VerifySteps.v | sigstore/_cli.py: the verify commands, file access by file access. CliVerify.v says what the commands do while no file changes. Here other processes may create, change and remove any file at any moment between two accesses of the command (and what one access sees may be any content): the file system is a function of the number of accesses made so far. The rest of the world (libraries, logs, the trust material of a TUF repository) is as in CliVerify.v. |
| JsonText.v | JSON texts as pydantic writes and reads them, for sigstore/dsse/__init__.py:95 `model_validate_json` and dsse/__init__.py:99 `model_dump_json`. The code is in pydantic-core and jiter, which are not part of the repository; this is a model of their documented behaviour. |
| StatementJson.v | In-toto statements as JSON: sigstore/dsse/__init__.py:38-72 `Digest`, `DigestSet`, `Subject`, `_Statement`, read by `model_validate_json` (95) and written by `model_dump_json(by_alias=True)` (100). A predicate is represented by the text pydantic writes for it. |
| CliCrash.v | Commands that do not come to their end: a process may be killed at any time, and what it has done to the file system by then stays. The states in which it can be killed. |
| JsonPrefix.v | The beginning of the text of a JSON object is not the text of a JSON value, unless only white space is missing. Used by PropsCrash.v. |
| BundleJson.v | Bundles as JSON: sigstore/models.py:540-554 `Bundle.from_json` and `Bundle.to_json`, which call `from_json` and `to_json` of the pydantic class `sigstore_models.bundle.v1.Bundle`. That library is not part of the repository; the shape of the text is the JSON mapping of the protobuf messages of sigstore, as in the bundles of /repo/test/assets: names in camel case (the names of the fields are accepted too, models.py constructs the messages with them), bytes in base64, 64-bit integers as text, enumerations by name, missing optional members left out. Simplified: members that sigstore-python does not read (the `hint` of a public key, the `keyid` of a signature) are ignored when reading and not written; missing timestamp data is written like an empty list (models.py treats both alike). |
| TrustJson.v | Trust configuration files: sigstore/models.py:698-704 `SigningConfig.from_file`, models.py:830-837 `TrustedRoot.from_file` and models.py:919-925 `ClientTrustConfig.from_json`, which call `from_json` of the pydantic classes of `sigstore_models.trustroot.v1`. That library is not part of the repository; the shape of the texts is the JSON mapping of the protobuf messages of sigstore, as in /repo/test/assets/trusted_root, trust_config and signing_config. Simplified: times without a time zone are taken to be rejected (compared with the clock at _utils.py:366-380 they would raise TypeError). |
| Terminal.v | sigstore/_cli.py: what `sigstore sign` and `sigstore attest` show on the terminal, and at which level of logging. Left out, all of them independent of the identity: warnings about keys of the trusted root that cannot be loaded (trust.py:161), the constant line of _cli.py:782, the lines of the interactive flow (see Oauth.v) and, of the lines of level DEBUG, all but the first (_cli.py:639). The texts of exceptions are not modelled. |
| EntryJson.v | The texts of log entries: what verifier.py:518-520, 557-559, 610 and 644 and models.py:123-135 read from them with the pydantic classes `rekor_types.Hashedrekord`, `rekor_types.Dsse`, `rekor_types.ProposedEntry` and `sigstore_models.rekor.v2.entry.Entry`, and the texts of the requests to logs. These libraries are not part of the repository; the shape of the texts is that of the entries of Rekor, as in the bundles of /repo/test/assets (canonicalizedBody). Simplified: a public key without content is read like a missing one. |
| OidcFloat.v | sigstore/oidc.py: `IdentityToken` with the clock as the code reads it, a binary64 number of seconds. Oidc.v takes the clock exactly; PropsOidcFloat.v compares the two. |
| CliHint.v | What the verification commands log besides the lines of CliVerify.v: the hint about the instance and the explanations of errors. |
| Diagnose.v | The explanations of errors that the commands log (errors.py, models.py, oidc.py: `diagnostics`). |
| Report.v | The text of the lines that `sigstore verify` prints for inputs that were verified. |

## Files of the specifications and proofs

| file | contents |
|---|---|
| PropsCodec.v | Property C67: the text encodings whose outputs are compared. |
| ToyHash.v | A cheap 32-byte hash for examples and witnesses only; it is not part of the model. The kernel re-checker has no virtual machine, so real SHA-256 computations (Sha256.v) are kept to a few. |
| MerkleSpec.v | Specification: RFC 6962 section 2.1, Merkle tree hash and audit paths, written from the RFC and independent of sigstore-python. |
| MerkleProofs.v | Proofs relating `Merkle.v` (the code) to `MerkleSpec.v` (RFC 6962). |
| PropsMerkle.v | Properties C01-C04: Merkle inclusion. The specification is `MerkleSpec.v` (RFC 6962 section 2.1: `MTH` the tree hash, `PATH` the audit path). |
| KeyringProofs.v | Lemmas and specification vocabulary for C10-C13. |
| ToyEnv.v | A small computable environment, used only to show that theorem hypotheses are met by concrete cases and to compute witnesses. It is not part of the model. |
| PropsKeyring.v | Properties C10-C13: keyrings and validity windows. Specification vocabulary (`scheme_of_details`, `usable`, `registered`, `msg_id`) is at the top of `KeyringProofs.v`: a trusted-root key message is `usable` when its bytes load as a key of the class its declared details name; it is `registered` in a list of messages when no later usable message has the same id. |
| CheckpointProofs.v | Lemmas and specification vocabulary for C05-C07. |
| PropsCheckpoint.v | Properties C05-C07: signed checkpoints. Specification vocabulary is at the top of `CheckpointProofs.v` (`sig_line`, `lines_text`, `body_lines`, `signed_note_text`: the C2SP signed-note syntax; `good_body`, `good_sig`: which parts that syntax allows) and of `KeyringProofs.v` (`registered`, `msg_id`); `integer_text`, an integer in text form, is in IntText.v; `note_lines`, the lines of a note's body, is in NoteText.v. |
| PropsLogEntry.v | Properties C08, C09: the signed entry timestamp payload and log entry verification. |
| PropsCert.v | Property C18: certificate classification. |
| FloatMsProofs.v | Rounding lemmas for C17. |
| PropsSct.v | Properties C15, C16, C17, C19: signed certificate timestamps. |
| PropsDsse.v | Properties C20-C23: DSSE envelopes and in-toto statements. |
| PropsPolicy.v | Properties C31-C33: verification policies. |
| PropsKeyDetails.v | Property C64: key details of a signing certificate. |
| PropsTrustedRoot.v | Property C14: keys and certificates taken from a trusted root. |
| PropsHashing.v | Property C44: digests of inputs (sha256_digest). |
| PropsBundle.v | Properties C34-C36: bundles. |
| VerifierSpec.v | Specification of bundle verification, and proof that the model of verifier.py accepts exactly what the specification allows. |
| ToyBundles.v | Concrete bundles in the toy environment, used for examples and witnesses only. |
| PropsVerifier.v | Properties C24-C30: bundle verification. The specification is the first part of `VerifierSpec.v`. |
| PropsVerifierErrors.v | Property C30: what bundle verification raises. |
| PropsSigningConfig.v | Properties C42 and C43: service selection and signing configurations. |
| PropsOidc.v | Properties C49 and C50: identity tokens. |
| PropsRekorClient.v | Properties C45-C48 and C90: the log clients. |
| PropsClients.v | Properties C65 and C66: the CA client and the timestamp authority client. |
| SignProofs.v | Lemmas about `Sign.v`: what a run of a signing operation consists of. |
| ToySign.v | A concrete signing session in the toy environment, used for examples and witnesses only. |
| PropsSign.v | Properties C37-C41: signing. `Outside` is everything a signer does not control: clock, key generation, randomness and the answers of all services. All theorems hold for every `out : Outside`; since answers may depend on the whole history, this covers every schedule and every service behaviour. |
| PropsSignThreads.v | Property C84: threads that share a signer do not interfere with each other. |
| UrlProofs.v | Lemmas about the URLs of Url.v. |
| PropsOauth.v | Properties C51, C52, C69, C70: the interactive OAuth flow. `wrun` ranges over all interleavings of the two threads with any number of HTTP requests, by any local process, at any time. |
| PropsOauthServer.v | Property C112: the redirect server lives as long as the login, and leaving it never hangs. |
| PropsChain.v | Property C113: which certificates a signer's certificate may be issued by. The oracle for chain building is replaced by the model of the path search in Chain.v; what the other theorems assume of the oracle is derived from conditions on single certificates. |
| PropsTufCache.v | Property C114: the results that the TUF client remembers. |
| PropsTuf.v | Properties C53, C54, C55: trust material from TUF repositories. |
| PropsTufShared.v | Property C99: processes that share the trust cache. |
| PropsCliVerify.v | Properties C56, C57, C58 and C62: the verify commands. |
| PropsCliSign.v | Properties C59, C60, C61 and C72: the sign and attest commands. |
| PropsPredicate.v | Property C68: the predicates that `attest` accepts. |
| PropsCliEnv.v | Property C63: boolean environment variables. |
| PropsOffline.v | Property C71: verification with `--offline` depends on nothing but local files and the clock. |
| PropsSignVerify.v | Property C73: what the commands `sign` and `attest` write is accepted by `verify identity`. |
| PropsStability.v | Properties C74, C75 and C76: acceptance of a bundle is stable over time, under additions to the trusted root, and under an upgrade of the bundle. |
| PropsAuthentic.v | Properties C77 to C79: what an accepted bundle proves about the world, if the services (C77) or only the logs (C78) are honest, and that texts signed for one purpose cannot serve another (C79). |
| PropsWitness.v | Property C98: which services must be honest. One honest witness of the time is enough. |
| PropsCliTrust.v | Properties C80 and C81: trusting an instance, updating its trust material; and C72 for get-identity-token. |
| PropsCliVerifyMore.v | Properties C82 and C83: which log is asked about detached materials; several inputs of one command. |
| PropsCliMain.v | Properties C85, C86, C87: the exit status, options and environment variables, and `plumbing fix-bundle` on the file system. |
| CliWordsSpec.v | Specification for property C115 (PropsCliWords.v): what the words of a command line mean. |
| CliWordsProofs.v | Lemmas for property C115: the names of options, what one word is, and what one parser accepts. |
| PropsCliWords.v | Property C115: from the words of a command line to what a command does. |
| PropsExit.v | Property C88: the library does not end the process, and the commands end it with status 0, 1 or 2. |
| PropsDisclosure.v | Property C89: what leaves the machine when something is signed. |
| PropsServices.v | Property C100: which services a signing command uses. |
| PropsEndToEnd.v | Property C91: what `sigstore sign` and `sigstore attest` leave behind is accepted by `sigstore verify identity`, from command line to exit status. |
| PropsGenuine.v | Property C93: what exit status 0 of the verify commands proves about the world, if the services (or only the logs) are honest. |
| PropsOrder.v | Property C94: the order of the entries of a trusted root, and their repetition, do not matter. |
| PropsClock.v | Property C95: verification takes time, and the clock moves while it runs. |
| PropsIgnored.v | Property C96: which parts of a bundle verification looks at, and which it ignores. |
| PropsOps.v | Property C97: which cryptographic operations verification performs, how many, and in which order. |
| PropsSessions.v | C101: threads that share the clients of a signing context do not share HTTP sessions. |
| PropsVerifySteps.v | Property C102: files may change while something is verified. |
| PropsVerifyRace.v | Property C103: what exit status 0 of the verify commands proves about the world if other processes change files while the command runs. |
| PropsJsonText.v | JSON texts: the reader of JsonText.v reads exactly the texts of the grammar, each text has one value, and what is written is read back. Used by PropsStatement.v. |
| PropsStatement.v | Property C104: which bytes are accepted as in-toto statements, and that a statement which is written is read as it was meant. |
| PropsCrash.v | Property C105: commands that are interrupted. |
| PropsCrashCache.v | Property C105, the trust cache: processes that are interrupted while they obtain their trust configuration. |
| PropsUrl.v | Property C106: which hosts are asked, and what the URLs that are made say. |
| PropsBundleJson.v | Property C107: which bytes are read as bundles, and that a bundle that is written is read as it was. |
| PropsTrustJson.v | Property C108: which texts are trust configurations, and that only what such a text lists is trusted and used. |
| PropsTerminal.v | Property C109: secrets do not appear in files or on the terminal, unless debugging output is asked for. |
| PropsEntryJson.v | Property C110: the text of a log entry names the artifact, the signature and the certificate; and what is submitted is read back from it. |
| PropsFiles.v | Property C111: what the files say when `sigstore verify` accepts them. |
| PropsPlain.v | Property C116: the plain command lines, from their words to what has happened in the world. |
| PropsOidcFloat.v | Property C117: the clock of identity tokens is a binary64 number in the code. |
| PropsHint.v | Property C118: what the verification commands say when they fail; in particular when they ask whether the instance is the right one. |
| PropsDiagnose.v | C119: what the explanations of errors tell. |
| PropsReport.v | C120: the OK lines that `sigstore verify` prints can be attributed to the inputs. |

## Trusted base

* Coq 8.16.1: its kernel (and, for `vm_compute` proofs, its virtual machine; `coqchk` re-checks every module without it).
* `Print Assumptions` prints "Closed under the global context" for every theorem named in MANIFEST.json: no axioms. The
  command is run at the end of each `PropsX.v`.
* `coqchk` lists the seven module parameters `Coq.ssr.ssrunder.Under_rel.*` of the standard library, because files that use
  `ssreflect`-derived standard library modules load them; no theorem depends on them.
* No axioms, functors, module types, `Admitted`, or disabled kernel checks.
* The correspondence between `/repo` and the model is by reading: the code could not be run. It is what the comments with
  file and line numbers are for.

## What stands for third-party code

| third party | in the model |
|---|---|
| hashlib | `e_hash`, an arbitrary function; hypotheses (32-byte output, no collision among named strings) where needed |
| cryptography: keys, signatures, certificates, path building | `e_load_key`, `e_sig_verify`, `e_parse_cert`, `e_self_issued`, `e_chain`: arbitrary functions that may raise; a certificate is a record of the attributes the code reads, each of which may raise. C113 replaces `e_chain` by a model of the path search (Chain.v), written from the documentation of the library |
| cryptography: PEM/DER output | concrete (Codec.v) |
| rfc3161-client | `e_decode_tsr`, `e_tsa_verify`: arbitrary functions |
| sigstore-models, rekor-types (pydantic parsing) | `Parsers`, `RekorParsers`, `w_parse` fields: arbitrary functions from text to messages that may raise; where the code relies on details of the parse (predicates, Rekor v1 answers) the parse is concrete |
| pydantic validation of predicates | concrete, on JSON values (Predicate.v), in lax mode |
| json | `json` values (Json.v) as parsed; the canonical writer used for the SET is concrete |
| PyJWT | concrete, from its documented behaviour: audience, required claims, iat/nbf/exp with leeway (Oidc.v) |
| requests | a request yields a response record, a connection failure, or an exception (Http.v); redirects are not separate |
| python-tuf | `TufLib`: arbitrary refresh and download functions that may write to their own directories (Tuf.v) |
| urllib.parse | concrete (Url.v: urlsplit, urljoin, urlencode, unquote, parse_qs, from CPython 3.11), compared with CPython on 1500 random joins and 600 random quotings; arbitrary: the NFKC/bracket check of non-ASCII or bracketed hosts (`ul_netloc`) and the replacement of undecodable bytes (`ul_replace`) |
| webbrowser, http.server, threads | interleaving semantics (Oauth.v; life of the server thread in OauthServer.v) |
| argparse | concrete: how the words are divided (CliWords.v, from CPython 3.11.10, compared with it on 9000 random command lines), and what is done with the values (CliEnv.v, CliMain.v); a refused argument is exit status 2 |
| pathlib, open | map or tree of files, lexical path arithmetic (CliSign.v, Tuf.v) |
| ThreadPoolExecutor | interleaving of jobs, limited number of workers (CliSign.v) |
| id (ambient credentials) | an arbitrary function (Oauth.v / CliSign.v) |
| Python float arithmetic | concrete binary64 on the magnitudes of `datetime` (FloatMs.v); elsewhere clock values are taken exactly |

## What is modelled

All functions of: `_internal/merkle.py`, `_internal/rekor/checkpoint.py`, `_internal/sct.py`, `_internal/trust.py`,
`_internal/key_details.py`, `_internal/timestamp.py`, `_internal/tuf.py`, `_internal/fulcio/client.py`,
`_internal/rekor/client.py`, `_internal/rekor/client_v2.py`, `_internal/oidc/oauth.py`, `dsse/__init__.py`,
`dsse/_predicate.py`, `hashes.py`, `oidc.py`, `sign.py`, `verify/policy.py`, `verify/verifier.py`; of `models.py` the log
entry, bundle, trusted root, signing configuration and client trust configuration classes; of `_utils.py` the key ids,
digests, encodings, certificate classification and time ranges; of `_cli.py` all commands, the
argument types, the tables of options and environment variables, and `main`.

## What is not modelled

* The code of sigstore-models and pydantic. JSON serialisation of statements and bundles, and reading of log entries, trusted roots, signing configurations and client trust configurations, is modelled from the JSON mapping of the messages (C104, C107, C108, C110); elsewhere these are read and written by oracles, of which C104, C107, C108 and C110 give one instance.
  Where a property needs that written files are read back (C73), that is a hypothesis.
* `_cli.py`: the texts of `--help` and `--version`, logging, and console output other than
  the lines named in C56, C60, C85 and C87.
* The texts given to exceptions when they are raised (Diagnose.v ranges over all texts; elsewhere `errors.py` classes are constructors of `exn` without text).
* Retries, timeouts and connection pooling of `requests`; TLS.
* `functools.lru_cache` in a process with several threads (for one thread it is modelled in TufCache.v, C114); Python's recursion limit; memory exhaustion.
* Timing side channels; concurrency other than that of C51, C52, C59-C61, C84, C99, C101-C103, C105.
* Interruptions (C105) leave what has been written so far: buffers that are lost and writes that the operating system reorders are not modelled.
* The clock is read once per verification in `Verifier.v` and `TrustedRoot.v`; `Clock.v` models every reading, and C95 relates the two. Signing reads it several times (`Sign.v`).

## Findings

Behaviours of the code that a user may not expect; each is a `_refuted` theorem or part of an exact characterisation.

* Verification
  * An inclusion proof with a wrong tree size can be accepted for a wrong index (C04); the checkpoint's tree size is not
    compared with the proof's (C05).
  * The global log index is authenticated only by the SET (C09).
  * Several malformed inputs raise exceptions other than `VerificationError` (C06, C09, C18, C30).
  * Declared curve or key size of a trusted key is not checked against the key (C12).
  * SCT timestamps before November 2004 or after January 2038 can be one millisecond off, so genuine SCTs are rejected (C17).
  * The issuer of a precertificate may be classified as not a CA (C19).
  * The DSSE encoding counts characters, not bytes, of the payload type (C21).
  * Other-name SANs are compared in DER form (C31); `AnyOf` stops at the first exception that is not a `VerificationError` (C32).
  * For new bundles the leaf is not checked to be a leaf; a CA in the chain only warns (C34).
  * A log entry can be shared by an artifact bundle and an envelope bundle (C26).
  * Adding a key with the id of a known one to the trusted root, or its window starting, can revoke acceptance (C74, C75).
  * In a bundle with both an envelope and a message signature, timestamps cover the envelope's signature even when the artifact is
    verified (C77). A log whose name begins with `DSSEv1 ` would sign envelopes as checkpoints (C79).
  * The end of a timestamp authority's window is exclusive, that of a certificate inclusive (C27).
* Signing
  * Without caching, every bundle is signed with a key other than the certified one (C38).
  * The log's answer is not compared with what was submitted (C40); the timestamp is not checked to cover the signature (C66).
  * RSA keys work only if the CA itself signs with PKCS#1 v1.5 (C64).
  * A freshly issued certificate is not checked for expiry (C39).
* Clients
  * A 404 answer to a search raises because a `Response` with an error status is falsy (C46); index 0 and the empty uuid
    cannot be looked up (C47).
  * `LogCheckpoint.to_text` is a class method that uses `self`: every call fails (nothing calls it; not modelled).
  * CA error messages are never reported; malformed answers leak other exceptions (C65, C69).
  * The OAuth state is disclosed to the first local client, which can have its own code exchanged (C51).
  * The path of a CA URL is dropped; an authorization endpoint with a query loses `response_type`; a log URL must not end with
    a slash; the discovery document may name endpoints of any host (C106).
  * Repository URLs `""`, `"."`, `".."` map to shared or parent directories (C54).
* Commands
  * Detached materials are looked up in the first log of the root, in force or not; without any log no verifier can be made (C82).
  * `--cert-oidc-issuer ""` disables the issuer check, empty `verify github` options are ignored (C58); an empty
    `--identity-token` falls back to the ambient credential (C72).
  * Any separator is accepted in `sha256:...` arguments (C62); malformed or empty boolean variables stop every command (C63).
  * The overwrite check is check-then-write (C59); several `sign`/`attest` options make outputs collide (C60), and
    `--signature` equal to `--certificate` loses the signature (C61).
  * `fix-bundle --upgrade-version` drops timestamps, and the replacement entry is not compared with the original (C36); the upgrade
    can make a rejected bundle acceptable, by dropping the timestamp that made it rejected (C76).
  * `trust-instance` ignores the given root if one is shipped for the URL (C80); `update-trust-root` reports an update with
    `--trust-config` although there is none (C81).
  * Predicates: a resource descriptor's content is unusable, an empty digest set is accepted, booleans are lax (C68).
  * Without `--offline`, verifying bundles needs the TUF repository (C71).
  * base64 and hex readers accept non-canonical texts (C67).
  * `SIGSTORE_CERT_IDENTITY` and `SIGSTORE_CERT_OIDC_ISSUER` cannot replace the required options of `verify identity`; `-v`
    before the command is ignored; an unreadable boolean variable of any command stops all commands (C86).
  * `fix-bundle` ignores `--instance`, and cannot repair an entry with log index 0 (C87).
  * `--overwrite` and `fix-bundle --in-place` empty a file before the new content is there; an offline run killed while it fills the
    trust cache can leave an empty trusted root, on which all later offline runs fail (C105).
  * A malformed trust configuration raises pydantic's ValidationError, not an error of sigstore; so the commands end with a
    traceback (C108).
  * With `-v`, or `SIGSTORE_LOGLEVEL=DEBUG`, the parsed arguments are logged, with the identity token and the OAuth client
    secret in clear, even if they come from the environment; CI logs would keep them. An unknown name in `SIGSTORE_LOGLEVEL`
    ends every command with a traceback (C109).
  * The login waits for ever if the thread of the redirect server has died, and a local client that sends its request slowly
    delays its end (C112).
  * Only the direct issuer of a certificate is checked: all listed certificates are trust anchors, so an expired root above an
    intermediate does not matter, and precertificate signing certificates end in an IndexError; an unreadable certificate with
    the name of the issuer stops the search if it is listed first (C113).
  * An input named `-h` or `--help` makes a command end with status 0 without doing anything, unless it comes after `--`; an
    identity that begins with a minus sign must follow an equals sign; inputs must stand together; an abbreviation such as `--ver`
    is refused after the command because the main parser knows `--version` and `--verbose` (C115).
