-Q theories Verif
theories/Base.v
theories/Codec.v
theories/PropsCodec.v
theories/Sha256.v
theories/ToyHash.v
theories/Messages.v
theories/MerkleSpec.v
theories/Merkle.v
theories/MerkleProofs.v
theories/PropsMerkle.v
theories/Env.v
theories/Keyring.v
theories/KeyringProofs.v
theories/ToyEnv.v
theories/PropsKeyring.v
theories/PyText.v
theories/IntText.v
theories/Checkpoint.v
theories/CheckpointProofs.v
theories/NoteText.v
theories/PropsCheckpoint.v
theories/LogEntry.v
theories/PropsLogEntry.v
theories/Cert.v
theories/PropsCert.v
theories/FloatMs.v
theories/FloatMsProofs.v
theories/Sct.v
theories/PropsSct.v
theories/Dsse.v
theories/PropsDsse.v
theories/CodecMore.v
theories/Policy.v
theories/PropsPolicy.v
theories/KeyDetails.v
theories/PropsKeyDetails.v
theories/TrustedRoot.v
theories/PropsTrustedRoot.v
theories/Hashing.v
theories/Bundle.v
theories/Verifier.v
theories/PropsHashing.v
theories/PropsBundle.v
theories/VerifierSpec.v
theories/ToyBundles.v
theories/PropsVerifier.v
theories/PropsVerifierErrors.v
theories/SigningConfig.v
theories/PropsSigningConfig.v
theories/Json.v
theories/Oidc.v
theories/PropsOidc.v
theories/Http.v
theories/RekorClient.v
theories/PropsRekorClient.v
theories/Url.v
theories/Clients.v
theories/PropsClients.v
theories/Sign.v
theories/SignProofs.v
theories/ToySign.v
theories/PropsSign.v
theories/SignSteps.v
theories/PropsSignThreads.v
theories/UrlProofs.v
theories/Oauth.v
theories/OauthServer.v
theories/PropsOauth.v
theories/PropsOauthServer.v
theories/Chain.v
theories/PropsChain.v
theories/TufCache.v
theories/PropsTufCache.v
theories/CliWords.v
theories/Tuf.v
theories/PropsTuf.v
theories/TufShared.v
theories/PropsTufShared.v
theories/CliVerify.v
theories/PropsCliVerify.v
theories/Predicate.v
theories/CliSign.v
theories/PropsCliSign.v
theories/PropsPredicate.v
theories/CliEnv.v
theories/PropsCliEnv.v
theories/PropsOffline.v
theories/PropsSignVerify.v
theories/PropsStability.v
theories/PropsAuthentic.v
theories/PropsWitness.v
theories/CliTrust.v
theories/PropsCliTrust.v
theories/PropsCliVerifyMore.v
theories/CliMain.v
theories/Calm.v
theories/Outcomes.v
theories/PropsCliMain.v
theories/CliWordsSpec.v
theories/CliWordsProofs.v
theories/PropsCliWords.v
theories/PropsExit.v
theories/PropsDisclosure.v
theories/PropsServices.v
theories/PropsEndToEnd.v
theories/PropsGenuine.v
theories/PropsOrder.v
theories/Clock.v
theories/PropsClock.v
theories/PropsIgnored.v
theories/Ops.v
theories/PropsOps.v
theories/Sessions.v
theories/PropsSessions.v
theories/VerifySteps.v
theories/PropsVerifySteps.v
theories/PropsVerifyRace.v
theories/JsonText.v
theories/PropsJsonText.v
theories/StatementJson.v
theories/PropsStatement.v
theories/CliCrash.v
theories/JsonPrefix.v
theories/PropsCrash.v
theories/PropsCrashCache.v
theories/PropsUrl.v
theories/BundleJson.v
theories/PropsBundleJson.v
theories/TrustJson.v
theories/PropsTrustJson.v
theories/Terminal.v
theories/PropsTerminal.v
theories/EntryJson.v
theories/PropsEntryJson.v
theories/PropsFiles.v
theories/PropsPlain.v
theories/OidcFloat.v
theories/PropsOidcFloat.v
theories/CliHint.v
theories/Diagnose.v
theories/Report.v
theories/PropsHint.v
theories/PropsDiagnose.v
theories/PropsReport.v
