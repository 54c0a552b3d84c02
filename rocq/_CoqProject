-Q theories Verif
theories/AccessLog.v
theories/AccessLogCases.v
theories/AccessLogProofs.v
theories/AccessLogSpec.v
theories/AddrReadCases.v
theories/AddrReadProofs.v
theories/AddrReadSpec.v
theories/AddrZone.v
theories/AddrZoneCases.v
theories/AddrZoneProofs.v
theories/AddrZoneSpec.v
theories/AttemptCode.v
theories/AttemptLog.v
theories/AttemptLogCases.v
theories/AttemptLogProofs.v
theories/AttemptLogSpec.v
theories/Balance.v
theories/BalanceCases.v
theories/BalanceProofs.v
theories/BalanceSpec.v
theories/CertDates.v
theories/CertReport.v
theories/CertText.v
theories/CertTextProofs.v
theories/CertTextSpec.v
theories/ConcurrentCases.v
theories/ConcurrentProofs.v
theories/ConcurrentSpec.v
theories/Config.v
theories/ConfigProofs.v
theories/ConfigSpec.v
theories/ConfineProofs.v
theories/ConfineSpec.v
theories/ConformCases.v
theories/ConformProofs.v
theories/ConformSpec.v
theories/ContentProofs.v
theories/ContentSpec.v
theories/ContentSpell.v
theories/ContentWire.v
theories/CredentialsCases.v
theories/CredentialsProofs.v
theories/CredentialsSpec.v
theories/Decode.v
theories/DecodeCases.v
theories/DecodeLastCases.v
theories/DecodeLastProofs.v
theories/DecodeLastSpec.v
theories/DecodeProofs.v
theories/DecodeServe.v
theories/DecodeSpec.v
theories/DecodeStart.v
theories/Dice.v
theories/DiceCases.v
theories/DiceFloat.v
theories/DiceProofs.v
theories/DiceServe.v
theories/DiceSpec.v
theories/DrawCallsCases.v
theories/DrawCallsProofs.v
theories/DrawCallsSpec.v
theories/DurationProofs.v
theories/Elapsed.v
theories/ElapsedCases.v
theories/ElapsedLines.v
theories/ElapsedProofs.v
theories/ElapsedSpec.v
theories/Exchange.v
theories/ExchangeProofs.v
theories/ExchangeSpec.v
theories/GoStr.v
theories/Gzip.v
theories/GzipCases.v
theories/GzipProofs.v
theories/GzipSpec.v
theories/Handler.v
theories/HandlerCases.v
theories/HandlerProofs.v
theories/HandlerSpec.v
theories/Handshake.v
theories/HandshakeProofs.v
theories/HandshakeSpec.v
theories/HeadProofs.v
theories/HeadSpec.v
theories/Header.v
theories/HeaderProofs.v
theories/HeaderSpec.v
theories/Http1.v
theories/Http1Cases.v
theories/Http1Client.v
theories/Http1ClientProofs.v
theories/Http1ClientSpec.v
theories/Http1Close.v
theories/Http1Connect.v
theories/Http1Here.v
theories/Http1Keep.v
theories/Http1Old.v
theories/Http1Proofs.v
theories/Http1Spec.v
theories/Http2.v
theories/Http2Cases.v
theories/Http2LengthSpec.v
theories/Http2Proofs.v
theories/Http2Req.v
theories/Http2ReqBad.v
theories/Http2ReqBody.v
theories/Http2ReqCases.v
theories/Http2ReqLength.v
theories/Http2ReqProofs.v
theories/Http2ReqSpec.v
theories/Http2Spec.v
theories/IpText.v
theories/IpTextCases.v
theories/IpTextProofs.v
theories/IpTextSpec.v
theories/Iprex.v
theories/IprexProofs.v
theories/IprexShared.v
theories/IprexSharedCases.v
theories/IprexSharedProofs.v
theories/IprexSharedSpec.v
theories/IprexSpec.v
theories/Json.v
theories/JsonInert.v
theories/JsonProofs.v
theories/JsonSpec.v
theories/JwksRate.v
theories/JwksRateProofs.v
theories/JwksRateSpec.v
theories/Jwt.v
theories/JwtCases.v
theories/JwtDates.v
theories/JwtDatesSpec.v
theories/JwtKeys.v
theories/JwtLoad.v
theories/JwtLoadSpec.v
theories/JwtNames.v
theories/JwtProofs.v
theories/JwtRefresh.v
theories/JwtSpec.v
theories/KeyGrowthProofs.v
theories/KeyGrowthSpec.v
theories/KeyLog.v
theories/KeyLogProofs.v
theories/KeyLogSpec.v
theories/KeyMemory.v
theories/KeyMemoryCases.v
theories/KeyMemoryProofs.v
theories/KeyMemorySpec.v
theories/KeyPanicProofs.v
theories/KeyRetry.v
theories/Kid.v
theories/KidB64.v
theories/KidChars.v
theories/KidJson.v
theories/KidNumber.v
theories/KidProofs.v
theories/KidSpec.v
theories/KidUtf8.v
theories/LogForgeProofs.v
theories/LogText.v
theories/LogTextCases.v
theories/LogTextProofs.v
theories/LogTextSpec.v
theories/Machine.v
theories/MachineProofs.v
theories/MachineRaces.v
theories/MachineSpec.v
theories/MachineTimely.v
theories/NumberProofs.v
theories/NumberSpec.v
theories/Policy.v
theories/PolicyProofs.v
theories/PolicySpec.v
theories/PrivacyProofs.v
theories/PrivacySpec.v
theories/Process.v
theories/ProcessCases.v
theories/ProcessProofs.v
theories/ProcessSpec.v
theories/Regex.v
theories/RegexCases.v
theories/RegexGrammar.v
theories/RegexGrammarProofs.v
theories/RegexProofs.v
theories/RegexSpec.v
theories/ReplaceProofs.v
theories/ReplaceSpec.v
theories/Routing.v
theories/Sampler.v
theories/SamplerProofs.v
theories/SamplerSpec.v
theories/SelfReport.v
theories/SelfReportCases.v
theories/SelfReportProofs.v
theories/SelfReportSpec.v
theories/SequentialProofs.v
theories/SequentialSpec.v
theories/Startup.v
theories/StartupCases.v
theories/StartupExact.v
theories/StartupFloat.v
theories/StartupProofs.v
theories/StartupSpec.v
theories/Stats.v
theories/StatsDay.v
theories/StatsDayProofs.v
theories/StatsDaySpec.v
theories/StatsFloat.v
theories/StatsProofs.v
theories/StatsSpec.v
theories/SteerProofs.v
theories/SteerSpec.v
theories/SystemCases.v
theories/SystemProofs.v
theories/SystemSpec.v
theories/TextProofs.v
theories/TextSpec.v
theories/Thm_AccessLog.v
theories/Thm_AddrRead.v
theories/Thm_AddrZone.v
theories/Thm_AttemptCode.v
theories/Thm_AttemptLog.v
theories/Thm_Balance.v
theories/Thm_CertText.v
theories/Thm_Concurrent.v
theories/Thm_Config.v
theories/Thm_Confine.v
theories/Thm_Conform.v
theories/Thm_Content.v
theories/Thm_ContentSpell.v
theories/Thm_Credentials.v
theories/Thm_Decode.v
theories/Thm_DecodeLast.v
theories/Thm_Dice.v
theories/Thm_DrawCalls.v
theories/Thm_Duration.v
theories/Thm_Elapsed.v
theories/Thm_Exchange.v
theories/Thm_Gzip.v
theories/Thm_Handler.v
theories/Thm_Handshake.v
theories/Thm_Head.v
theories/Thm_Http1.v
theories/Thm_Http1Client.v
theories/Thm_Http1Connect.v
theories/Thm_Http1Keep.v
theories/Thm_Http1Old.v
theories/Thm_Http2.v
theories/Thm_Http2Bad.v
theories/Thm_Http2Length.v
theories/Thm_Http2Req.v
theories/Thm_IpText.v
theories/Thm_Iprex.v
theories/Thm_IprexShared.v
theories/Thm_Json.v
theories/Thm_Jwt.v
theories/Thm_JwtDates.v
theories/Thm_JwtLoad.v
theories/Thm_JwtNames.v
theories/Thm_KeyGrowth.v
theories/Thm_KeyLog.v
theories/Thm_KeyMemory.v
theories/Thm_KeyPanic.v
theories/Thm_KeyRetry.v
theories/Thm_Kid.v
theories/Thm_LogText.v
theories/Thm_Machine.v
theories/Thm_Policy.v
theories/Thm_Privacy.v
theories/Thm_Process.v
theories/Thm_Regex.v
theories/Thm_Replace.v
theories/Thm_Retries.v
theories/Thm_Sampler.v
theories/Thm_SelfReport.v
theories/Thm_Sequential.v
theories/Thm_Startup.v
theories/Thm_StartupExact.v
theories/Thm_Stats.v
theories/Thm_StatsDay.v
theories/Thm_Steer.v
theories/Thm_System.v
theories/Thm_Text.v
theories/Thm_Timing.v
theories/Thm_Tls.v
theories/Thm_TlsReport.v
theories/Thm_TraceLog.v
theories/Thm_Url.v
theories/Thm_UrlHost.v
theories/Thm_Wire.v
theories/Timing.v
theories/TimingEarly.v
theories/TimingLive.v
theories/TimingMore.v
theories/TimingProofs.v
theories/TimingRetries.v
theories/TimingSpec.v
theories/TimingSystem.v
theories/Tls.v
theories/TlsProofs.v
theories/TlsReport.v
theories/TlsReportProofs.v
theories/TlsReportSpec.v
theories/TlsSpec.v
theories/TraceLog.v
theories/TraceLogCases.v
theories/TraceLogProofs.v
theories/TraceLogServer.v
theories/TraceLogSpec.v
theories/Url.v
theories/UrlCases.v
theories/UrlHostProofs.v
theories/UrlHostSpec.v
theories/UrlProofs.v
theories/UrlSpec.v
theories/Wire.v
theories/WireCases.v
theories/WireProofs.v
theories/WireSpec.v
