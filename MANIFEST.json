{
 "claims": [
  {
   "property": "C01",
   "status": "proved",
   "theorems": [
    "C01_inclusion_binds_position"
   ],
   "note": ""
  },
  {
   "property": "C02",
   "status": "proved",
   "theorems": [
    "C02_inclusion_implies_membership"
   ],
   "note": ""
  },
  {
   "property": "C03",
   "status": "proved",
   "theorems": [
    "C03_honest_inclusion_proof_accepted"
   ],
   "note": ""
  },
  {
   "property": "C04",
   "status": "proved",
   "theorems": [
    "C04_inclusion_proof_length",
    "C04_inclusion_rejection_is_verification_error",
    "C04_index_below_size_refuted",
    "C04_wrong_size_wrong_index_refuted"
   ],
   "note": "The stronger expectation is refuted with concrete SHA-256 witnesses."
  },
  {
   "property": "C05",
   "status": "proved",
   "theorems": [
    "C05_accepted_checkpoint",
    "C05_tree_size_is_committed_refuted"
   ],
   "note": "The expectation that the signed tree size is compared with the proof's is refuted."
  },
  {
   "property": "C06",
   "status": "proved",
   "theorems": [
    "C06_checkpoint_exceptions",
    "C06_only_verification_error_refuted"
   ],
   "note": "Exact list of leaks; the unqualified claim is refuted."
  },
  {
   "property": "C07",
   "status": "proved",
   "theorems": [
    "C07_body_roundtrip",
    "C07_note_roundtrip",
    "C07_verification_of_well_formed_checkpoints",
    "C07_only_signature_lines_refuted"
   ],
   "note": ""
  },
  {
   "property": "C08",
   "status": "proved",
   "theorems": [
    "C08_payload_text",
    "C08_payload_injective",
    "C08_set_not_replayable"
   ],
   "note": ""
  },
  {
   "property": "C09",
   "status": "proved",
   "theorems": [
    "C09_entry_has_proof_and_checkpoint",
    "C09_entry_verification_complete",
    "C09_index_without_promise_is_not_authenticated",
    "C09_exceptions",
    "C09_log_index_is_authenticated_refuted",
    "C09_only_verification_error_refuted"
   ],
   "note": "Also shows that the global log index is authenticated only by the SET, and that verification can leak other exceptions."
  },
  {
   "property": "C10",
   "status": "proved",
   "theorems": [
    "C10_known_id_only_that_key",
    "C10_unknown_id_some_key",
    "C10_accepted_means_trusted_key",
    "C10_no_keys_never_accepts",
    "C10_exceptions"
   ],
   "note": ""
  },
  {
   "property": "C100",
   "status": "proved",
   "theorems": [
    "C100_sign_services",
    "C100_attest_services",
    "C100_sign_no_other_services",
    "C100_attest_no_other_services"
   ],
   "note": "Discovery of ambient credentials and TUF downloads are not among the services meant; they are C72 and C53-C55."
  },
  {
   "property": "C101",
   "status": "proved",
   "theorems": [
    "C101_private_sessions",
    "C101_one_session",
    "C101_own_memory",
    "C101_headers",
    "C101_calls",
    "C101_progress",
    "C101_isolated",
    "C101_caching_signer",
    "C101_fulcio_shared_refuted"
   ],
   "note": "C101_fulcio_shared_refuted: without the restriction to logs and timestamp authorities the claim is false. A session's memory is modelled as all answers it received, an upper bound of what requests keeps."
  },
  {
   "property": "C102",
   "status": "proved",
   "theorems": [
    "C102_accepted",
    "C102_accepted_github",
    "C102_accesses",
    "C102_untouched_input",
    "C102_untouched_input_github",
    "C102_other_files",
    "C102_vanished",
    "C102_unchanged",
    "C102_exit_status",
    "C102_verified_file_stays_refuted"
   ],
   "note": "One access sees one state of the file system, which may be any; reading a file while it is being written is covered because that state is arbitrary. The TUF cache is the subject of C99. C102_verified_file_stays_refuted: the file may be replaced after it was read."
  },
  {
   "property": "C103",
   "status": "proved",
   "theorems": [
    "C103_identity",
    "C103_github",
    "C103_public",
    "C103_untouched",
    "C103_final_content_refuted"
   ],
   "note": "Honesty of services, careful signers and unforgeable signatures are hypotheses about the history, as in C77 and C93. C103_final_content_refuted: the content of the file at the end of the run need not have been signed."
  },
  {
   "property": "C104",
   "status": "proved",
   "theorems": [
    "C104_accepts",
    "C104_round_trip",
    "C104_injective",
    "C104_writable",
    "C104_built",
    "C104_subject_digest",
    "C104_unknown_digest",
    "C104_deep",
    "C104_readable",
    "C104_predicate_refuted",
    "C104_names_refuted",
    "C104_duplicates_refuted"
   ],
   "note": "JSON reading and writing are pydantic-core and jiter; JsonText.v models their documented behaviour (limits and float texts are parameters), not their code. C104_readable meets the hypothesis statement_readable of C73 and C91 for tools with this serialisation."
  },
  {
   "property": "C105",
   "status": "proved",
   "theorems": [
    "C105_sign_interrupted",
    "C105_attest_interrupted",
    "C105_sign_only_outputs",
    "C105_attest_only_outputs",
    "C105_sign_nothing_lost",
    "C105_attest_nothing_lost",
    "C105_sign_end",
    "C105_attest_end",
    "C105_bundle_whole",
    "C105_attestation_whole",
    "C105_sign_recovers",
    "C105_overwrite_refuted",
    "C105_fix_interrupted",
    "C105_fix_end",
    "C105_fix_whole",
    "C105_fix_kept_refuted",
    "C105_cache_interrupted",
    "C105_cache_recovers",
    "C105_cache_stuck_refuted"
   ],
   "note": "What is buffered and not yet written counts as not written, and the operating system reorders nothing. The whole-bundle theorems assume that bundles are written as JSON objects and that what is no JSON text in UTF-8 is not read as a bundle (C104 models such texts). The cache theorems are about offline processes, as C99_first_run. C105_overwrite_refuted, C105_fix_kept_refuted and C105_cache_stuck_refuted: what is not guaranteed."
  },
  {
   "property": "C106",
   "status": "proved",
   "theorems": [
    "C106_address_unique",
    "C106_plain_hosts_accepted",
    "C106_certificate_url",
    "C106_certificate_request",
    "C106_trust_bundle_request",
    "C106_base_path_refuted",
    "C106_discovery_host",
    "C106_discovery_url",
    "C106_discovery_request",
    "C106_issuer_host",
    "C106_endpoints_anywhere_refuted",
    "C106_session_hosts",
    "C106_log_slash_refuted",
    "C106_authorization",
    "C106_endpoint_query_refuted"
   ],
   "note": "urllib.parse is modelled concretely (Url.v). How requests/urllib3 reads the URLs it is given, and HTTP redirects, are not modelled."
  },
  {
   "property": "C107",
   "status": "proved",
   "theorems": [
    "C107_accepts",
    "C107_rejects",
    "C107_round_trip",
    "C107_text_read",
    "C107_injective",
    "C107_reread",
    "C107_bundle_reread",
    "C107_signed_proper",
    "C107_sign_then_verify",
    "C107_attest_then_verify",
    "C107_interrupted_sign",
    "C107_interrupted_fix",
    "C107_texts_refuted"
   ],
   "note": "BundleJson.v models what sigstore_models does (protobuf JSON mapping), which is not in the repository; members that sigstore-python does not read are ignored. Which JSON values are integers, whether lists may be missing, depth limits are parameters."
  },
  {
   "property": "C108",
   "status": "proved",
   "theorems": [
    "C108_config_accepts",
    "C108_root_accepts",
    "C108_signing_config_accepts",
    "C108_rejects",
    "C108_members",
    "C108_only_listed_artifact",
    "C108_only_listed_dsse",
    "C108_verify_command",
    "C108_sign_command",
    "C108_attest_command",
    "C108_newer_root_refused"
   ],
   "note": "TrustJson.v models what sigstore_models does (protobuf JSON mapping), which is not in the repository. Which JSON values are times, and the members that sigstore-python does not read, are parameters."
  },
  {
   "property": "C109",
   "status": "proved",
   "theorems": [
    "C109_sign",
    "C109_attest",
    "C109_sign_run",
    "C109_attest_run",
    "C109_terminal",
    "C109_default",
    "C109_verbose_reveals"
   ],
   "note": "Terminal.v models what the commands sign and attest print and log, with the levels. Noninterference is proved by a simulation of two runs under the same schedule. Debug messages other than the parsed arguments are not modelled: those of the package name neither secret (the local OAuth server logs the authorization code), but with --verbose given twice other libraries log too. Warnings while loading the trust root, which precede everything that depends on a secret, and progress text that is the same in all runs is left out. The text of errors is represented by the exception, and the browser flow by its result."
  },
  {
   "property": "C11",
   "status": "proved",
   "theorems": [
    "C11_construction_never_fails",
    "C11_keyring_contents",
    "C11_unloadable_keys_are_skipped"
   ],
   "note": ""
  },
  {
   "property": "C110",
   "status": "proved",
   "theorems": [
    "C110_rekord_accepts",
    "C110_dsse_accepts",
    "C110_v2_accepts",
    "C110_artifact",
    "C110_envelope",
    "C110_one_artifact",
    "C110_posted_artifact",
    "C110_posted_envelope",
    "C110_request_kept",
    "C110_logged",
    "C110_signed_artifact",
    "C110_signed_statement",
    "C110_answer_v1",
    "C110_answer_v2"
   ],
   "note": "EntryJson.v models the readers of entry bodies (rekor_types and sigstore_models.rekor.v2 are not part of the repository: their JSON shape is taken from the entries in test/assets) and the JSON of requests. The members that verification does not use are validated by an arbitrary function. C110_one_artifact strengthens C26_one_artifact_per_entry."
  },
  {
   "property": "C111",
   "status": "proved",
   "theorems": [
    "C111_artifact",
    "C111_statement",
    "C111_verify_identity",
    "C111_verify_github"
   ],
   "note": "PropsFiles.v combines C85, C24, C25, C107, C108 and C110: the specification speaks about paths into JSON texts only. Certificates, timestamp responses and SCTs are still parsed by oracles (cryptography, rfc3161-client)."
  },
  {
   "property": "C112",
   "status": "proved",
   "theorems": [
    "C112_silent_afterwards",
    "C112_leaving",
    "C112_refines",
    "C112_result_kept",
    "C112_callback_answered",
    "C112_failed_server_noticed_refuted",
    "C112_leaving_prompt_refuted"
   ],
   "note": "OauthServer.v models __enter__, __exit__ and the serve_forever/shutdown loop of socketserver (standard library, not part of the repository) step by step. The two _refuted theorems show what does not hold. Steps are counted, not seconds."
  },
  {
   "property": "C113",
   "status": "proved",
   "theorems": [
    "C113_chain_iff",
    "C113_chain_exceptions",
    "C113_calm",
    "C113_accepted_issuer",
    "C113_rejected",
    "C113_search_errors_caught",
    "C113_added_certificates",
    "C113_accepted_with_more_authorities",
    "C113_order_of_certificates",
    "C113_order_of_authorities",
    "C113_whole_chain_checked_refuted",
    "C113_any_addition_refuted",
    "C113_precertificate_issuer_refuted"
   ],
   "note": "Chain.v models the path search of the cryptography library as called by the code; that the library works so is part of the trusted base. Predicates on single certificates (names, signature, extension policy, name constraints) stay abstract."
  },
  {
   "property": "C114",
   "status": "proved",
   "theorems": [
    "C114_loading_unaffected",
    "C114_remembered",
    "C114_own_answer",
    "C114_failures_retried",
    "C114_bounded",
    "C114_for_ever_refuted"
   ],
   "note": "TufCache.v models functools.lru_cache (standard library) for one thread. C114_loading_unaffected justifies that Tuf.v and C53 leave it out."
  },
  {
   "property": "C115",
   "status": "proved",
   "theorems": [
    "C115_accepted_iff",
    "C115_nothing_lost",
    "C115_after_dashes",
    "C115_safe_form",
    "C115_verify_identity",
    "C115_status_zero",
    "C115_input_like_help_refuted",
    "C115_equivalent_spellings_refuted"
   ],
   "note": "CliWords.v models argparse of CPython 3.11.10 (standard library, not part of the repository) for the parsers of _parser; the model was compared with it on 9000 random command lines. Other versions of Python treat -- slightly differently. Which characters are digits is arbitrary."
  },
  {
   "property": "C116",
   "status": "proved",
   "theorems": [
    "C116_sign",
    "C116_verify_identity",
    "C116_genuine",
    "C116_github",
    "C116_files",
    "C116_sign_then_verify",
    "C116_any_environment_refuted"
   ],
   "note": "Composition of C115 with C85, C91, C93 and C111 for command lines without optional arguments. Honesty of services and unforgeability are hypotheses as in C91 and C93, met by the examples."
  },
  {
   "property": "C117",
   "status": "proved",
   "theorems": [
    "C117_same_token",
    "C117_token_period",
    "C117_within_a_microsecond",
    "C117_fractions_exact_refuted"
   ],
   "note": "Refinement: OidcFloat.v is Oidc.v with binary64 rounding (FloatMs.v) and leads to the same results, so C49 and C50 hold of it. Fractional claims are the exception."
  },
  {
   "property": "C118",
   "status": "proved",
   "theorems": [
    "C118_library",
    "C118_entry_time",
    "C118_same_lines",
    "C118_hint_identity",
    "C118_hint_github",
    "C118_explained",
    "C118_asked_about_other_instance_refuted",
    "C118_asked_only_about_other_instance_refuted"
   ],
   "note": "CertValidationError is raised iff the times are established and at one of them there is no chain; the question is asked iff the failed input is such a bundle; the loops with everything they log refine those of C56; explanations counted. The text of the diagnostics is not modelled."
  },
  {
   "property": "C119",
   "status": "proved",
   "theorems": [
    "C119_verbatim",
    "C119_reason",
    "C119_logged",
    "C119_bundle_exact",
    "C119_upgrade",
    "C119_tuf",
    "C119_tuf_reason_refuted",
    "C119_network_refuted",
    "C119_ambient_refuted"
   ],
   "note": "C119_logged: the words of the reason are in the logged explanation up to indentation, and its last line; C119_verbatim: character by character except for errors about bundles; C119_bundle_exact: the whole explanation for texts of one line; C119_upgrade: the two errors about bundles are told apart whatever the text; C119_tuf: which advice is given about TUF errors. The _refuted theorems are the limits named in the statement."
  },
  {
   "property": "C12",
   "status": "proved",
   "theorems": [
    "C12_scheme_from_details",
    "C12_unsupported_or_mistyped_never_loads",
    "C12_declared_curve_refuted"
   ],
   "note": "That the declared curve or key size is checked against the key is refuted."
  },
  {
   "property": "C120",
   "status": "proved",
   "theorems": [
    "C120_ok_line",
    "C120_ok_line_github",
    "C120_every_input",
    "C120_every_input_github",
    "C120_unambiguous",
    "C120_newline_refuted",
    "C120_file_or_digest_refuted",
    "C120_digest_again_refuted"
   ],
   "note": "C120_ok_line: a printed line is attributed to an input that denotes the verified item (evidence and policy as in C56); C120_every_input: nothing is left out; C120_unambiguous: names determine files and determine digests. The _refuted theorems are the limits named in the statement."
  },
  {
   "property": "C13",
   "status": "proved",
   "theorems": [
    "C13_validity_window",
    "C13_allow_expired_is_monotone",
    "C13_not_started_never_usable"
   ],
   "note": ""
  },
  {
   "property": "C14",
   "status": "proved",
   "theorems": [
    "C14_rekor_keyring",
    "C14_ct_keyring",
    "C14_no_log_key_is_an_error",
    "C14_signing_keys_are_verification_keys",
    "C14_fulcio_certificates",
    "C14_timestamp_authorities",
    "C14_fulcio_exceptions"
   ],
   "note": ""
  },
  {
   "property": "C15",
   "status": "proved",
   "theorems": [
    "C15_payload_decodes",
    "C15_payload_unambiguous",
    "C15_oversized_certificate_refused"
   ],
   "note": ""
  },
  {
   "property": "C16",
   "status": "proved",
   "theorems": [
    "C16_accepted_iff",
    "C16_accepted_sct_is_signed",
    "C16_exceptions"
   ],
   "note": ""
  },
  {
   "property": "C17",
   "status": "proved",
   "theorems": [
    "C17_timestamp_exact",
    "C17_timestamp_error_at_most_one",
    "C17_before_1970",
    "C17_always_exact_refuted"
   ],
   "note": ""
  },
  {
   "property": "C18",
   "status": "proved",
   "theorems": [
    "C18_is_ca_iff",
    "C18_not_ca_iff",
    "C18_inconsistent_raises",
    "C18_is_leaf_iff",
    "C18_ca_and_leaf_disjoint",
    "C18_root_is_self_issued_ca",
    "C18_leaf_exceptions",
    "C18_only_verification_error_refuted",
    "C18_leaf_never_has_cert_sign_refuted"
   ],
   "note": ""
  },
  {
   "property": "C19",
   "status": "proved",
   "theorems": [
    "C19_issuer_classified",
    "C19_issuer_must_be_ca_refuted"
   ],
   "note": "The expectation that the issuer must be a CA is refuted; what holds instead is proved."
  },
  {
   "property": "C20",
   "status": "proved",
   "theorems": [
    "C20_pae_injective"
   ],
   "note": ""
  },
  {
   "property": "C21",
   "status": "proved",
   "theorems": [
    "C21_ascii_types_follow_the_specification",
    "C21_defined_iff_encodable",
    "C21_agrees_with_specification_iff_ascii",
    "C21_agrees_with_specification_refuted"
   ],
   "note": "Agreement with the DSSE specification for all types is refuted; the exact condition is proved."
  },
  {
   "property": "C22",
   "status": "proved",
   "theorems": [
    "C22_verify_iff",
    "C22_envelope_has_exactly_one_signature",
    "C22_invalid_envelopes_raise",
    "C22_verified_payload_is_signed",
    "C22_verify_exceptions",
    "C22_sign_verify_roundtrip"
   ],
   "note": ""
  },
  {
   "property": "C23",
   "status": "proved",
   "theorems": [
    "C23_matches_iff",
    "C23_never_raises_for_sha256",
    "C23_other_algorithms_refused",
    "C23_subject_identifies_digest",
    "C23_only_sha256_digests_matter",
    "C23_builder"
   ],
   "note": ""
  },
  {
   "property": "C24",
   "status": "proved",
   "theorems": [
    "C24_accepted_artifact",
    "C24_accepted_log_entry",
    "C24_accepted_certificate"
   ],
   "note": ""
  },
  {
   "property": "C25",
   "status": "proved",
   "theorems": [
    "C25_accepted_dsse"
   ],
   "note": ""
  },
  {
   "property": "C26",
   "status": "proved",
   "theorems": [
    "C26_one_artifact_per_entry",
    "C26_one_artifact_per_entry_bytes",
    "C26_one_envelope_per_entry",
    "C26_artifact_or_envelope_refuted"
   ],
   "note": "An entry can be shared by an artifact bundle and an envelope bundle whose PAE is that artifact: the corresponding expectation is refuted."
  },
  {
   "property": "C27",
   "status": "proved",
   "theorems": [
    "C27_times_are_determined",
    "C27_trusted_time_sources",
    "C27_authority_window",
    "C27_v2_entries_need_a_timestamp"
   ],
   "note": ""
  },
  {
   "property": "C28",
   "status": "proved",
   "theorems": [
    "C28_too_many_timestamps",
    "C28_duplicate_timestamps",
    "C28_times_in_order",
    "C28_no_time_no_acceptance"
   ],
   "note": ""
  },
  {
   "property": "C29",
   "status": "proved",
   "theorems": [
    "C29_complete_artifacts_are_accepted",
    "C29_complete_envelopes_are_accepted",
    "C29_honest_log_entries_are_accepted"
   ],
   "note": ""
  },
  {
   "property": "C30",
   "status": "proved",
   "theorems": [
    "C30_artifact_exceptions",
    "C30_dsse_exceptions",
    "C30_only_verification_errors_refuted"
   ],
   "note": "Complete list of the sources of other exceptions; the unqualified claim is refuted with constructible bundles."
  },
  {
   "property": "C31",
   "status": "proved",
   "theorems": [
    "C31_identity_accepts_iff",
    "C31_exceptions",
    "C31_empty_issuer_is_no_issuer",
    "C31_fulcio_other_name_matches_refuted",
    "C31_other_name_text_never_matches"
   ],
   "note": "Other-names are compared in their DER form; the expectation that the identity text matches is refuted."
  },
  {
   "property": "C32",
   "status": "proved",
   "theorems": [
    "C32_all_of",
    "C32_any_of",
    "C32_boolean_combination",
    "C32_order_irrelevant",
    "C32_empty_never_accepts",
    "C32_any_of_is_disjunction_refuted"
   ],
   "note": ""
  },
  {
   "property": "C33",
   "status": "proved",
   "theorems": [
    "C33_every_policy_documented",
    "C33_raw_extension_policies",
    "C33_der_extension_policies",
    "C33_accepts_at_most_one_value",
    "C33_oids_distinct",
    "C33_other_extensions_irrelevant",
    "C33_exceptions"
   ],
   "note": ""
  },
  {
   "property": "C34",
   "status": "proved",
   "theorems": [
    "C34_bundle_iff",
    "C34_v01_has_promise",
    "C34_malformed_json",
    "C34_exceptions",
    "C34_new_bundles_have_leaf_refuted",
    "C34_no_ca_in_chain_refuted",
    "C34_content_present_refuted"
   ],
   "note": "The leaf check applies to old bundles only and a CA in the chain only warns: these expectations are refuted, the exact condition is proved."
  },
  {
   "property": "C35",
   "status": "proved",
   "theorems": [
    "C35_assembled_bundle",
    "C35_assembling_succeeds",
    "C35_parts_are_kept",
    "C35_reassembly"
   ],
   "note": ""
  },
  {
   "property": "C36",
   "status": "proved",
   "theorems": [
    "C36_repair",
    "C36_well_formed_unchanged",
    "C36_upgrade",
    "C36_upgrade_without_promise_fails",
    "C36_unfixable_exits",
    "C36_upgrade_keeps_timestamps_refuted",
    "C36_replacement_is_the_same_entry_refuted"
   ],
   "note": "Keeping timestamps is refuted: --upgrade-version drops them, and fails for bundles that have no other time source."
  },
  {
   "property": "C37",
   "status": "proved",
   "theorems": [
    "C37_artifact",
    "C37_dsse"
   ],
   "note": "For all honest CAs, logs and timestamp authorities, all histories; the caching signer only (see C38 for the other)."
  },
  {
   "property": "C38",
   "status": "proved",
   "theorems": [
    "C38_caching_signer",
    "C38_without_caching_refuted"
   ],
   "note": "Proved with caching; without caching every bundle is signed with a key other than the certified one, for all environments in which keys are fresh and signatures verify under one key only."
  },
  {
   "property": "C39",
   "status": "proved",
   "theorems": [
    "C39_requests_have_valid_tokens",
    "C39_certificate_not_expired",
    "C39_expired_certificate",
    "C39_expired_token",
    "C39_one_request",
    "C39_fresh_certificates_not_expired_refuted"
   ],
   "note": ""
  },
  {
   "property": "C40",
   "status": "proved",
   "theorems": [
    "C40_artifact",
    "C40_dsse",
    "C40_answer_matches_submission_refuted"
   ],
   "note": ""
  },
  {
   "property": "C41",
   "status": "proved",
   "theorems": [
    "C41_bundle_timestamps",
    "C41_failures_are_skipped",
    "C41_some_time_suffices",
    "C41_no_time_is_an_error"
   ],
   "note": ""
  },
  {
   "property": "C42",
   "status": "proved",
   "theorems": [
    "C42_service_selection",
    "C42_selection_is_determined",
    "C42_selected_services_usable"
   ],
   "note": ""
  },
  {
   "property": "C43",
   "status": "proved",
   "theorems": [
    "C43_loads_iff",
    "C43_endpoints",
    "C43_forced_version",
    "C43_oidc_url",
    "C43_load_exceptions",
    "C43_context",
    "C43_unsupported_forced_version_refuted",
    "C43_load_errors_are_sigstore_errors_refuted"
   ],
   "note": ""
  },
  {
   "property": "C44",
   "status": "proved",
   "theorems": [
    "C44_any_buffer_size",
    "C44_stream_digest",
    "C44_bytes_digest",
    "C44_hashed_is_returned",
    "C44_always_a_prefix",
    "C44_interrupted_stream_refuted"
   ],
   "note": "Streams that report no data before their end are digested only up to that point (refuted for them)."
  },
  {
   "property": "C45",
   "status": "proved",
   "theorems": [
    "C45_oldest_entry"
   ],
   "note": ""
  },
  {
   "property": "C46",
   "status": "proved",
   "theorems": [
    "C46_none_iff",
    "C46_error_answers_raise",
    "C46_not_found_is_none_refuted"
   ],
   "note": "The expectation that a 404 means None is refuted; the exact condition for None is proved."
  },
  {
   "property": "C47",
   "status": "proved",
   "theorems": [
    "C47_by_uuid",
    "C47_by_index",
    "C47_both_or_none",
    "C47_every_index_refuted",
    "C47_empty_uuid_refuted"
   ],
   "note": "Index 0 and the empty uuid are boundary cases that the code gets wrong."
  },
  {
   "property": "C48",
   "status": "proved",
   "theorems": [
    "C48_parses_iff",
    "C48_one_entry_only",
    "C48_roundtrip",
    "C48_promise_covers_the_answer"
   ],
   "note": ""
  },
  {
   "property": "C49",
   "status": "proved",
   "theorems": [
    "C49_token_iff",
    "C49_validity_period",
    "C49_expired_or_misdirected",
    "C49_exceptions",
    "C49_only_identity_errors_refuted"
   ],
   "note": "PyJWT's claim checks are modelled from its documented behaviour."
  },
  {
   "property": "C50",
   "status": "proved",
   "theorems": [
    "C50_identity",
    "C50_identity_claim_required",
    "C50_federated_issuer",
    "C50_identity_is_a_text_claim_refuted",
    "C50_issuer_is_text_refuted",
    "C50_only_federating_issuers_refuted"
   ],
   "note": ""
  },
  {
   "property": "C51",
   "status": "proved",
   "theorems": [
    "C51_in_band",
    "C51_provider_answer",
    "C51_out_of_band",
    "C51_forced_out_of_band",
    "C51_first_callback_final",
    "C51_anyone_can_abort",
    "C51_forged_callback_refuted",
    "C51_missing_parameters_refuted"
   ],
   "note": "Over all interleavings of the two threads and all requests. Refuted expectations: the state is disclosed to the first local client, which can have its own code exchanged; missing parameters are a KeyError."
  },
  {
   "property": "C52",
   "status": "proved",
   "theorems": [
    "C52_urls",
    "C52_one_url_in_band",
    "C52_pkce",
    "C52_one_url_refuted",
    "C52_out_of_band_blocked_refuted",
    "C52_url_read_once",
    "C52_unwritable_refuted"
   ],
   "note": "At most one redirect and one printed URL, whose text decodes to exactly the eight parameters of the session; PKCE binding. Refuted: an unencodable client id ends the flow with UnicodeEncodeError. Refuted: one URL in total (unlocked flag); the out-of-band flow can be blocked by a local client."
  },
  {
   "property": "C53",
   "status": "proved",
   "theorems": [
    "C53_no_network",
    "C53_offline_material",
    "C53_online_path",
    "C53_online_refreshed",
    "C53_refresh_failure",
    "C53_lookup_failures_are_tuf_errors_refuted"
   ],
   "note": "For every TUF library, file system and operation sequence."
  },
  {
   "property": "C54",
   "status": "proved",
   "theorems": [
    "C54_directories",
    "C54_no_collision",
    "C54_updater_directory",
    "C54_special_urls_refuted"
   ],
   "note": "Percent-encoding is injective; the URLs '', '.' and '..' are the exceptions."
  },
  {
   "property": "C55",
   "status": "proved",
   "theorems": [
    "C55_files_kept",
    "C55_populate"
   ],
   "note": ""
  },
  {
   "property": "C56",
   "status": "proved",
   "theorems": [
    "C56_verify_identity_iff",
    "C56_verify_github_iff",
    "C56_one_failure_is_enough",
    "C56_first_failure",
    "C56_ok_means_verified",
    "C56_exit_status",
    "C56_github_exit_status"
   ],
   "note": "For every command line, file system, Rekor answer and clock; argparse gives the parsed options."
  },
  {
   "property": "C57",
   "status": "proved",
   "theorems": [
    "C57_dsse_binds_the_input",
    "C57_refused"
   ],
   "note": ""
  },
  {
   "property": "C58",
   "status": "proved",
   "theorems": [
    "C58_identity_and_issuer_checked",
    "C58_github_policy_iff",
    "C58_github_issuer_and_options_checked",
    "C58_issuer_always_checked_refuted",
    "C58_every_option_checked_refuted"
   ],
   "note": "Proved for non-empty values; an empty issuer or option is silently not checked (refuted)."
  },
  {
   "property": "C59",
   "status": "proved",
   "theorems": [
    "C59_sign_refused",
    "C59_attest_refused",
    "C59_sign_existing_files_kept",
    "C59_attest_existing_files_kept",
    "C59_sign_only_outputs_change",
    "C59_attest_only_outputs_change",
    "C59_race_refuted"
   ],
   "note": "For every interleaving of threads and other processes; the check-then-write race is exhibited as a refuted strengthening."
  },
  {
   "property": "C60",
   "status": "proved",
   "theorems": [
    "C60_default_names",
    "C60_sign_own_bundles",
    "C60_attest_own_bundles",
    "C60_output_directory_refuted",
    "C60_attest_bundle_refuted"
   ],
   "note": "Default names; other options refuted by concrete runs."
  },
  {
   "property": "C61",
   "status": "proved",
   "theorems": [
    "C61_sign_outputs",
    "C61_attest_outputs",
    "C61_sign_reported",
    "C61_attest_reported",
    "C61_schedule_independent",
    "C61_failures_are_separate",
    "C61_can_finish",
    "C61_signature_lost_refuted",
    "C61_schedule_refuted"
   ],
   "note": "Threads interleave at the granularity of digesting, each clock reading, signature and request of a signing operation (SignSteps.v), opening, and writing any number of bytes."
  },
  {
   "property": "C62",
   "status": "proved",
   "theorems": [
    "C62_argument_iff",
    "C62_other_arguments_refused",
    "C62_digest",
    "C62_separator_refuted",
    "C62_digest_or_file_refuted"
   ],
   "note": ""
  },
  {
   "property": "C63",
   "status": "proved",
   "theorems": [
    "C63_true_iff",
    "C63_false_iff",
    "C63_otherwise",
    "C63_options",
    "C63_bad_value_iff",
    "C63_empty_refuted"
   ],
   "note": ""
  },
  {
   "property": "C64",
   "status": "proved",
   "theorems": [
    "C64_details_describe_the_key",
    "C64_supported_keys",
    "C64_unsupported_raises_value_error",
    "C64_prehash_is_the_registry_hash",
    "C64_ed25519_has_no_prehash",
    "C64_prehash_agrees_with_keyring",
    "C64_rsa_key_under_ecdsa_ca_refuted"
   ],
   "note": "RSA keys are only supported when the issuing CA itself signs with PKCS#1 v1.5: refuted expectation."
  },
  {
   "property": "C65",
   "status": "proved",
   "theorems": [
    "C65_accepts_iff",
    "C65_certificate_has_chain",
    "C65_bad_answers",
    "C65_exceptions",
    "C65_trust_bundle",
    "C65_error_message_refuted",
    "C65_malformed_answers_refuted"
   ],
   "note": "Answers that are not JSON or have values of unexpected types leak other exceptions, and the CA's error message is never reported: both expectations are refuted."
  },
  {
   "property": "C66",
   "status": "proved",
   "theorems": [
    "C66_timestamp_iff",
    "C66_failures",
    "C66_exceptions",
    "C66_timestamp_covers_signature_refuted"
   ],
   "note": ""
  },
  {
   "property": "C67",
   "status": "proved",
   "theorems": [
    "C67_base64",
    "C67_base64_read",
    "C67_hex",
    "C67_pem",
    "C67_certificate_in_entry",
    "C67_utf8",
    "C67_base64_refused",
    "C67_base64_canonical_refuted",
    "C67_hex_canonical_refuted"
   ],
   "note": "The encoders are characterised by the RFCs' definitions on bits; that the readers accept only canonical texts is refuted."
  },
  {
   "property": "C68",
   "status": "proved",
   "theorems": [
    "C68_v0_2_iff",
    "C68_v1_iff",
    "C68_refused",
    "C68_signed",
    "C68_content_refuted",
    "C68_empty_digest_refuted"
   ],
   "note": "The iff theorems give the accepted documents; C68_refused and C68_signed are about whole runs of attest."
  },
  {
   "property": "C69",
   "status": "proved",
   "theorems": [
    "C69_exchange_iff",
    "C69_exchange_exceptions",
    "C69_request",
    "C69_errors_are_sigstore_errors_refuted"
   ],
   "note": "Token exchange; malformed answers raise ValueError, AttributeError or KeyError."
  },
  {
   "property": "C70",
   "status": "proved",
   "theorems": [
    "C70_discovery_iff",
    "C70_discovery_exceptions",
    "C70_ambient_credentials",
    "C70_issuer_error_not_sigstore_error_refuted",
    "C70_other_failures_refuted"
   ],
   "note": "Discovery and ambient credentials."
  },
  {
   "property": "C71",
   "status": "proved",
   "theorems": [
    "C71_offline",
    "C71_offline_disk",
    "C71_bundles_need_no_log",
    "C71_bundles_need_no_network_refuted"
   ],
   "note": "Non-interference: two worlds that agree on the computer give equal output and status. C71_offline_disk composes the commands with the TUF client model of C53-C55."
  },
  {
   "property": "C72",
   "status": "proved",
   "theorems": [
    "C72_sign_identity",
    "C72_attest_identity",
    "C72_no_detection",
    "C72_empty_token_refuted",
    "C72_get_identity_token"
   ],
   "note": ""
  },
  {
   "property": "C73",
   "status": "proved",
   "theorems": [
    "C73_sign_then_verify",
    "C73_attest_then_verify"
   ],
   "note": "Composition of the command models (C56, C59, C60) with the library round trip (C37). That serialised bundles and statements are read back is a hypothesis here; C104 and C107 prove it for JSON."
  },
  {
   "property": "C74",
   "status": "proved",
   "theorems": [
    "C74_changes_only_at_starts",
    "C74_accepted_forever",
    "C74_command_any_time",
    "C74_accepted_until_a_start_refuted"
   ],
   "note": "Equality of results at two times between which no window starts; refutation: a second log key with the same id whose window starts later."
  },
  {
   "property": "C75",
   "status": "proved",
   "theorems": [
    "C75_accepted_with_extended_root",
    "C75_any_addition_refuted"
   ],
   "note": "That the X.509 path search finds the same chain is a hypothesis about the oracle (C113 derives it from conditions on the added certificates); refutation: a log key with the same id, and a timestamp authority without window put first."
  },
  {
   "property": "C76",
   "status": "proved",
   "theorems": [
    "C76_upgraded_accepted_iff",
    "C76_upgraded_needs_log_time",
    "C76_upgrade_accepts_nothing_new_refuted"
   ],
   "note": "Composition of C36 with the specification of verification. Bundles that contain both an envelope and a message signature are excluded for artifacts: the upgrade keeps the envelope only."
  },
  {
   "property": "C77",
   "status": "proved",
   "theorems": [
    "C77_artifact_signed_by_identity",
    "C77_envelope_signed_by_identity",
    "C77_timestamp_covers_artifact_refuted"
   ],
   "note": "Honesty of services, unforgeability and care of key owners are hypotheses about an arbitrary history of the world, stated in the specification and met by a concrete one. The artifact theorem excludes bundles with both an envelope and a message signature (the refutation shows why); whether the generated protobuf class admits these is third-party."
  },
  {
   "property": "C78",
   "status": "proved",
   "theorems": [
    "C78_artifact_is_public",
    "C78_envelope_is_public",
    "C78_certificate_is_public"
   ],
   "note": "Collisions are exhibited as concrete strings of the tree and the proof."
  },
  {
   "property": "C79",
   "status": "proved",
   "theorems": [
    "C79_promise_is_no_checkpoint",
    "C79_promise_is_no_envelope",
    "C79_sct_is_no_promise_or_envelope",
    "C79_checkpoint_is_no_envelope_refuted"
   ],
   "note": ""
  },
  {
   "property": "C80",
   "status": "proved",
   "theorems": [
    "C80_only_trusted_instances",
    "C80_root_of_trust",
    "C80_other_commands_bring_no_root",
    "C80_refused",
    "C80_users_root_is_used_refuted"
   ],
   "note": "That the TUF library writes in the two directories it is given only and refuses to start without a root are hypotheses, met by a concrete library; instance URLs are ordinary (C54 refutes collisions of the others)."
  },
  {
   "property": "C81",
   "status": "proved",
   "theorems": [
    "C81_updated_means_refreshed",
    "C81_message_means_update_refuted"
   ],
   "note": ""
  },
  {
   "property": "C82",
   "status": "proved",
   "theorems": [
    "C82_verifier_iff",
    "C82_no_log",
    "C82_only_the_first_log",
    "C82_log_in_force_refuted"
   ],
   "note": ""
  },
  {
   "property": "C83",
   "status": "proved",
   "theorems": [
    "C83_one_by_one",
    "C83_one_by_one_github",
    "C83_order_and_repetition"
   ],
   "note": "Clock readings are tied to inputs, not to their position."
  },
  {
   "property": "C84",
   "status": "proved",
   "theorems": [
    "C84_as_if_alone",
    "C84_own_artifact",
    "C84_own_envelope",
    "C84_signed_in_threads_verifies",
    "C84_one_certificate",
    "C84_threads_return",
    "C84_latest_reading_refuted"
   ],
   "note": "Each clock reading, key generation, signature, and request is one atomic step. That threads use separate HTTP sessions is C101; only requests to the CA by non-caching signers share one, and those are assumed not to affect each other."
  },
  {
   "property": "C85",
   "status": "proved",
   "theorems": [
    "C85_verify_identity",
    "C85_verify_github",
    "C85_sign",
    "C85_attest",
    "C85_usage",
    "C85_get_identity_token",
    "C85_trust_instance",
    "C85_update_trust_root"
   ],
   "note": "The third-party libraries are assumed not to end the process themselves (calm_machine, see C88). How argparse splits the command line into options and values is not modelled; --help and --version are left out."
  },
  {
   "property": "C86",
   "status": "proved",
   "theorems": [
    "C86_accepted_iff",
    "C86_environment",
    "C86_given_option_wins",
    "C86_verbose_before_refuted",
    "C86_required_from_environment_refuted",
    "C86_only_own_variables_refuted"
   ],
   "note": ""
  },
  {
   "property": "C87",
   "status": "proved",
   "theorems": [
    "C87_fixed",
    "C87_not_fixed",
    "C87_repairable",
    "C87_instance_refuted",
    "C87_index_zero_refuted"
   ],
   "note": "Writing the file is one step (see C105 for interruptions); JSON serialisation is an oracle here (C107 gives it)."
  },
  {
   "property": "C88",
   "status": "proved",
   "theorems": [
    "C88_verify_artifact",
    "C88_sign",
    "C88_tokens",
    "C88_issuer",
    "C88_trust_config",
    "C88_config_parts",
    "C88_log_clients",
    "C88_exit_status",
    "C88_libraries_refuted"
   ],
   "note": "The hypotheses about third parties are in Calm.v."
  },
  {
   "property": "C89",
   "status": "proved",
   "theorems": [
    "C89_only_digests",
    "C89_token",
    "C89_configured_services",
    "C89_statement_v2",
    "C89_statement_v1"
   ],
   "note": "Relational: two runs side by side. C89_statement_v2 assumes that an ECDSA signature is a function of the digest of the message."
  },
  {
   "property": "C90",
   "status": "proved",
   "theorems": [
    "C90_v1_iff",
    "C90_v2_iff",
    "C90_v1_proof",
    "C90_error",
    "C90_sigstore_error_refuted",
    "C90_log_info_iff"
   ],
   "note": ""
  },
  {
   "property": "C91",
   "status": "proved",
   "theorems": [
    "C91_sign_then_verify",
    "C91_attest_then_verify"
   ],
   "note": "Composition of C85 and C73. That bundles and statements are read back after JSON serialisation is a hypothesis, met by the example and proved for JSON in C104 and C107."
  },
  {
   "property": "C92",
   "status": "proved",
   "theorems": [
    "C92_detached"
   ],
   "note": "That the PEM text of a certificate is read back is a hypothesis (cryptography); base64, UTF-8 and the trailing newline are modelled."
  },
  {
   "property": "C93",
   "status": "proved",
   "theorems": [
    "C93_verify_identity",
    "C93_verify_github",
    "C93_public"
   ],
   "note": "Composition of C85 with C77 and C78. Honesty of services and unforgeability are hypotheses about an arbitrary history of the world (as in C77), met by concrete examples for both commands."
  },
  {
   "property": "C94",
   "status": "proved",
   "theorems": [
    "C94_same_verifier",
    "C94_same_results",
    "C94_same_acceptance",
    "C94_any_root_refuted"
   ],
   "note": "same results for roots with the same elements, under stated conditions; refuted without them (C113 derives the condition on chain building from one on the listed certificates)"
  },
  {
   "property": "C95",
   "status": "proved",
   "theorems": [
    "C95_moving_clock",
    "C95_moving_clock_services",
    "C95_moving_clock_signing",
    "C95_nothing_early",
    "C95_nothing_expired",
    "C95_some_moment_refuted",
    "C95_some_moment_services_refuted"
   ],
   "note": "refinement between the model with one clock reading per call and the model with one per use; refuted when a window starts meanwhile"
  },
  {
   "property": "C96",
   "status": "proved",
   "theorems": [
    "C96_ignored_parts",
    "C96_log_id",
    "C96_index_is_checked_refuted"
   ],
   "note": "equality of results for all pairs of bundles that agree on the listed parts; the index of an entry without a signed time is not looked at (finding)"
  },
  {
   "property": "C97",
   "status": "proved",
   "theorems": [
    "C97_same_results",
    "C97_bounded_work",
    "C97_operations",
    "C97_certificate_key_last",
    "C97_too_many_timestamps",
    "C97_nothing_else"
   ],
   "note": "the model with operations (Ops.v) refines to Verifier.v by C97_same_results; bounds, provenance and order are proved about it"
  },
  {
   "property": "C98",
   "status": "proved",
   "theorems": [
    "C98_artifact_one_honest_witness",
    "C98_envelope_one_honest_witness",
    "C98_artifact_without_witness",
    "C98_envelope_without_witness",
    "C98_refines_C77",
    "C98_no_witness_refuted"
   ],
   "note": "Refines C77: honesty is asked of the CA and of one witness only; the refuted theorem shows that the witness is needed."
  },
  {
   "property": "C99",
   "status": "proved",
   "theorems": [
    "C99_alone",
    "C99_populated_cache",
    "C99_no_rollback",
    "C99_first_run",
    "C99_settled",
    "C99_first_run_race_refuted",
    "C99_rollback_refuted"
   ],
   "note": "small-step model with arbitrary schedules; refinement to Tuf.v by C99_alone; two races are findings (refuted theorems)"
  }
 ]
}