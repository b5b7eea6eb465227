-Q theories Verif
theories/Str.v
theories/Base64.v
theories/Utf8.v
theories/Sfv.v
theories/Http.v
theories/Sha2.v
theories/Algorithm.v
theories/Component.v
theories/Canonicalize.v
theories/Calendar.v
theories/Signing.v
theories/Verifying.v
theories/Reqwest.v
theories/Mock.v
theories/KeyFile.v
theories/Validator.v
theories/Tests.v
theories/StrFacts.v
theories/Base64Facts.v
theories/SfvFacts.v
theories/SfvParse.v
theories/Spec.v
theories/SpecFacts.v
theories/SpecAlg.v
theories/CanonFacts.v
theories/AlgFacts.v
theories/SpecTrim.v
theories/WhiteFacts.v
theories/SpecGrammar.v
theories/SpecVerify.v
theories/GrammarFacts.v
theories/ReadFacts.v
theories/VerifyFacts.v
theories/SpecSign.v
theories/ReqFacts.v
theories/SignFacts.v
theories/TrimFacts.v
theories/SpecMock.v
theories/MoreVerify.v
theories/RoundFacts.v
theories/SpecCalendar.v
theories/CalendarFacts.v
theories/DateFacts.v
theories/SpecReq.v
theories/SpecQuery.v
theories/QueryFacts.v
theories/SpecLine.v
theories/LineFacts.v
theories/SpecHist.v
theories/HistFacts.v
theories/CompFacts.v
theories/SignPanic.v
theories/Samples.v
theories/SignMore.v
theories/RoundTrip.v
theories/ShaFacts.v
theories/SpecSha.v
theories/ShaStd.v
theories/SpecAuto.v
theories/Witness.v
theories/WitnessSign.v
theories/WitnessRound.v
theories/SpecText.v
theories/MockFacts.v
theories/SpecOpt.v
theories/OptFacts.v
theories/PipeFacts.v
theories/SpecKey.v
theories/KeyFacts.v
theories/SpecPem.v
theories/PemFacts.v
theories/KeyPipe.v
theories/PropVerify.v
theories/PropSign.v
theories/PropRound.v
theories/PropCanon.v
theories/PropAlg.v
theories/PropReq.v
theories/PropHist.v
theories/PropComp.v
theories/PropText.v
theories/PropOpt.v
theories/PropGrammar.v
theories/PropKey.v
theories/SpecMore.v
theories/GrowFacts.v
theories/PropMore.v
theories/AutoFacts.v
theories/PropStd.v
theories/SpecFlow.v
theories/FlowFacts.v
theories/SpecRun.v
theories/SpecAlike.v
theories/AlikeFacts.v
theories/RunFacts.v
theories/PropFlow.v
theories/PropAlike.v
theories/UrlParse.v
theories/SpecUrl.v
theories/UrlFacts.v
theories/UrlNormal.v
theories/TargetFacts.v
theories/WitnessUrl.v
theories/PropUrl.v
theories/SpecTrust.v
theories/TrustFacts.v
theories/PropTrust.v
theories/Logging.v
theories/SpecLog.v
theories/LogFacts.v
theories/PropLog.v
theories/HostParse.v
theories/SpecHost.v
theories/HostFacts.v
theories/Ipv6Facts.v
theories/NameFacts.v
theories/HostTextFacts.v
theories/PropHost.v
theories/CommandLine.v
theories/SpecCli.v
theories/CliFacts.v
theories/CliLevel.v
theories/CliIff.v
theories/CliMore.v
theories/CliInfo.v
theories/PropCli.v
theories/SpecBuild.v
theories/BuildFacts.v
theories/PropBuild.v
theories/SpecMake.v
theories/MakeFacts.v
theories/PropMake.v
theories/ReadmeFacts.v
theories/PropReadme.v
theories/Fail.v
theories/SpecFail.v
theories/FailFacts.v
theories/PropFail.v
theories/SpecDraft.v
theories/DraftFacts.v
theories/PropDraft.v
theories/SpecManual.v
theories/ManualFacts.v
theories/PropManual.v
theories/Tracing.v
theories/SpecTrace.v
theories/TraceFacts.v
theories/PropTrace.v
theories/Convert.v
theories/ConvertFacts.v
theories/PropConvert.v
theories/Actix.v
theories/SpecActix.v
theories/ActixFacts.v
theories/PropActix.v
theories/Rsa.v
theories/SpecRsa.v
theories/RsaNum.v
theories/RsaFacts.v
theories/RsaPss.v
theories/RsaMore.v
theories/RsaCrate.v
theories/WitnessRsa.v
theories/PropRsa.v
theories/Ecdsa.v
theories/SpecEcdsa.v
theories/EcdsaGroup.v
theories/EcdsaLaw.v
theories/EcdsaFacts.v
theories/EcdsaDer.v
theories/EcdsaCrate.v
theories/EcdsaPrime.v
theories/EcdsaP256.v
theories/WitnessEcdsa.v
theories/PropEcdsa.v
theories/EcdsaKey.v
theories/SpecEcdsaKey.v
theories/EcdsaKeyFacts.v
theories/WitnessEcdsaKey.v
theories/PropEcdsaKey.v
theories/RsaKey.v
theories/SpecRsaKey.v
theories/RsaKeyFacts.v
theories/RsaKeyCrate.v
theories/WitnessRsaKey.v
theories/PropRsaKey.v
theories/SpecRsaRun.v
theories/RsaRunFacts.v
theories/WitnessRsaRun.v
theories/PropRsaRun.v
theories/Io.v
theories/SpecIo.v
theories/IoFacts.v
theories/PropIo.v
theories/SpecCut.v
theories/CutFacts.v
theories/PropCut.v
theories/OtherUrl.v
theories/SpecOther.v
theories/OtherFacts.v
theories/OtherNormal.v
theories/FormFacts.v
theories/PropForm.v
theories/SpecTail.v
theories/TailFacts.v
theories/PropTail.v
theories/SpecCalls.v
theories/CallFacts.v
theories/PropCalls.v
theories/SpecShow.v
theories/ShowFacts.v
theories/PropShow.v
theories/SpecElse.v
theories/ElseFacts.v
theories/PropElse.v
theories/NonceFacts.v
theories/PropNonce.v
