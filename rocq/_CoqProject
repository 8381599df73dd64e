-Q theories Verif

theories/Base.v
theories/Base64.v
theories/Util.v
theories/Claim.v
theories/Jsmn.v
theories/Env.v
theories/Encode.v
theories/Decode.v
theories/BaseProofs.v
theories/HeapProofs.v
theories/SpecB64.v
theories/Base64EncProofs.v
theories/Base64EncApi.v
theories/Base64DecProofs.v
theories/Base64Api.v
theories/PropBase64.v
theories/UtilProofs.v
theories/PropUtil.v
theories/SpecJson.v
theories/ClaimProofs.v
theories/UnescapeProofs.v
theories/LocalProofs.v
theories/PropClaim.v
theories/SpecJwa.v
theories/EncodeProofs.v
theories/SignProofs.v
theories/EncodeTotal.v
theories/SpecEnc.v
theories/JsonProofs.v
theories/JsonUnique.v
theories/PropEncode.v
theories/DecodeProofs.v
theories/DecodeInv.v
theories/PropVerify.v
theories/JsmnProofs.v
theories/ParseProofs.v
theories/ReadProofs.v
theories/JsmnJson.v
theories/JsmnSize.v
theories/ValidateProofs.v
theories/PropValidate.v
theories/PropLeak.v
theories/PropJson.v
theories/DecodeTotal.v
theories/DecodeOk.v
theories/OverRead.v
theories/Walk.v
theories/Exact.v
theories/Unclosed.v
theories/PropSafe.v
theories/PropRoundTrip.v
theories/PropOverRead.v
theories/PropUnclosed.v
theories/PropIssued.v
theories/PropVerdict.v
theories/SimProofs.v
theories/PropHistory.v
theories/PropCorrupt.v
theories/PropTime.v
theories/PropSpelling.v
theories/PropNumeric.v
theories/PropInjective.v
theories/PropKeys.v
theories/Context.v
theories/SpecContext.v
theories/ContextProofs.v
theories/PropContext.v
theories/Nesting.v
theories/PropMemory.v
theories/Examples.v
theories/PropExamples.v
theories/PropPrograms.v
theories/CodeProofs.v
theories/PropCodes.v
theories/EncCodeProofs.v
theories/PropEncCodes.v
theories/PropReencode.v
theories/PropEncMemory.v
theories/PropEnough.v
theories/PropExact.v
theories/Complete.v
theories/PropComplete.v
theories/EncComplete.v
theories/EncRun.v
theories/EncSign.v
theories/PropEncComplete.v
theories/PropAuthentic.v
theories/Strain.v
theories/PropStrain.v
theories/EncStrain.v
theories/PropEncStrain.v
theories/PropOutputs.v
theories/Trace.v
theories/TraceProofs.v
theories/TraceRuns.v
theories/PropTrace.v
theories/SpecLife.v
theories/LifeProofs.v
theories/LifeRuns.v
theories/PropLife.v
theories/PropFlow.v
theories/Timing.v
theories/PropTiming.v
theories/Lax.v
theories/PropOwn.v
theories/Tests.v
theories/TestProofs.v
theories/TestVerdict.v
theories/PropTests.v
theories/TestBench.v
theories/PropSuite.v
theories/Sha2.v
theories/PropHmac.v
theories/PropSha.v
theories/ArgTests.v
theories/PropArgTests.v
theories/PropRules.v
theories/JsmnCost.v
theories/PropCost.v
theories/PropUtf8.v
theories/Locale.v
theories/PropLocale.v
theories/SpecThreads.v
theories/PropThreads.v
theories/TestRaw.v
theories/PropTestRaw.v
theories/PropTestFixed.v
theories/TimeT.v
theories/PropTimeT.v
theories/PropBuilds.v
theories/PropUnique.v
theories/PropCert.v
theories/PropSecret.v
theories/PropRead.v
theories/PropCases.v
theories/PropSplit.v
