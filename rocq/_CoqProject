-Q theories Verif
theories/Base/Bytes.v
theories/Model/Accounting.v
theories/Model/Admin.v
theories/Model/AuditLog.v
theories/Model/Auth.v
theories/Model/AuthClient.v
theories/Model/Backlog.v
theories/Model/Bignum.v
theories/Model/Buffered.v
theories/Model/Cgroup.v
theories/Model/ChannelIO.v
theories/Model/Channels.v
theories/Model/Ciphers.v
theories/Model/Closing.v
theories/Model/Cluster.v
theories/Model/Config.v
theories/Model/ConnCounters.v
theories/Model/Delay.v
theories/Model/Dying.v
theories/Model/Emit.v
theories/Model/Environ.v
theories/Model/Fingerprint.v
theories/Model/Forwarders.v
theories/Model/Frame.v
theories/Model/Globals.v
theories/Model/Input.v
theories/Model/KexKeys.v
theories/Model/KexMachine.v
theories/Model/KexSecret.v
theories/Model/KeyList.v
theories/Model/KeyOptions.v
theories/Model/Keys.v
theories/Model/Lifetime.v
theories/Model/Makers.v
theories/Model/Metrics.v
theories/Model/Negotiate.v
theories/Model/Network.v
theories/Model/Output.v
theories/Model/Packets.v
theories/Model/Queue.v
theories/Model/RecvWindow.v
theories/Model/Rekey.v
theories/Model/Relay.v
theories/Model/Requests.v
theories/Model/Server.v
theories/Model/Session.v
theories/Model/Startup.v
theories/Model/StringList.v
theories/Model/Tarpit.v
theories/Model/Terminal.v
theories/Model/Timed.v
theories/Model/TranslateClient.v
theories/Model/Version.v
theories/Model/Wire.v
theories/Model/WireSchema.v
theories/Proofs/AccountingFacts.v
theories/Proofs/AnswerFacts.v
theories/Proofs/AttemptFacts.v
theories/Proofs/AuditFacts.v
theories/Proofs/AuthClientFacts.v
theories/Proofs/AuthFacts.v
theories/Proofs/BacklogFacts.v
theories/Proofs/BignumFacts.v
theories/Proofs/BufferedFacts.v
theories/Proofs/CgroupFacts.v
theories/Proofs/ChannelFactories.v
theories/Proofs/ChannelFacts.v
theories/Proofs/ChannelObjects.v
theories/Proofs/ChannelRequests.v
theories/Proofs/ChannelStatus.v
theories/Proofs/ChannelSteps.v
theories/Proofs/ChannelToy.v
theories/Proofs/CipherFacts.v
theories/Proofs/CipherFormatFacts.v
theories/Proofs/CipherMade.v
theories/Proofs/CipherStream.v
theories/Proofs/ClusterFacts.v
theories/Proofs/ConfigFacts.v
theories/Proofs/ConfigFile.v
theories/Proofs/CounterFacts.v
theories/Proofs/CredentialFacts.v
theories/Proofs/CutFacts.v
theories/Proofs/DelayFacts.v
theories/Proofs/DyingFacts.v
theories/Proofs/EndToEndFacts.v
theories/Proofs/EnvironFacts.v
theories/Proofs/ExitFacts.v
theories/Proofs/FingerprintFacts.v
theories/Proofs/FinishFacts.v
theories/Proofs/FlowFacts.v
theories/Proofs/ForwarderFacts.v
theories/Proofs/FrameFacts.v
theories/Proofs/GlobalAnswerFacts.v
theories/Proofs/GlobalFacts.v
theories/Proofs/InputFacts.v
theories/Proofs/KexAuth.v
theories/Proofs/KexFacts.v
theories/Proofs/KexFrame.v
theories/Proofs/KexKeysFacts.v
theories/Proofs/KexLog.v
theories/Proofs/KexStrict.v
theories/Proofs/KexToy.v
theories/Proofs/KeyFacts.v
theories/Proofs/KeyFormatFacts.v
theories/Proofs/KeyListFacts.v
theories/Proofs/LifetimeFacts.v
theories/Proofs/ListenerFacts.v
theories/Proofs/LoginFacts.v
theories/Proofs/MakerFacts.v
theories/Proofs/MarkerFacts.v
theories/Proofs/MetricsFacts.v
theories/Proofs/NamesFacts.v
theories/Proofs/NetworkFacts.v
theories/Proofs/OpenFacts.v
theories/Proofs/OriginFacts.v
theories/Proofs/OutputFacts.v
theories/Proofs/PacketFacts.v
theories/Proofs/PipelineFacts.v
theories/Proofs/ProxyFacts.v
theories/Proofs/QueueFacts.v
theories/Proofs/QuoteFacts.v
theories/Proofs/RecvWindowFacts.v
theories/Proofs/RekeyFacts.v
theories/Proofs/RelayFacts.v
theories/Proofs/RequestFacts.v
theories/Proofs/RestrictFacts.v
theories/Proofs/ReturnFacts.v
theories/Proofs/RunFacts.v
theories/Proofs/ServerFacts.v
theories/Proofs/SessionFacts.v
theories/Proofs/SessionRunFacts.v
theories/Proofs/SizeFacts.v
theories/Proofs/StepFacts.v
theories/Proofs/TarpitFacts.v
theories/Proofs/TerminalFacts.v
theories/Proofs/TimedFacts.v
theories/Proofs/TranslateFacts.v
theories/Proofs/TunnelFacts.v
theories/Proofs/VersionFacts.v
theories/Proofs/WireFacts.v
theories/Props/C01.v
theories/Props/C02.v
theories/Props/C03.v
theories/Props/C04.v
theories/Props/C05.v
theories/Props/C06.v
theories/Props/C07.v
theories/Props/C08.v
theories/Props/C09.v
theories/Props/C10.v
theories/Props/C100.v
theories/Props/C101.v
theories/Props/C102.v
theories/Props/C103.v
theories/Props/C104.v
theories/Props/C11.v
theories/Props/C12.v
theories/Props/C13.v
theories/Props/C14.v
theories/Props/C15.v
theories/Props/C16.v
theories/Props/C17.v
theories/Props/C18.v
theories/Props/C19.v
theories/Props/C20.v
theories/Props/C21.v
theories/Props/C22.v
theories/Props/C23.v
theories/Props/C24.v
theories/Props/C25.v
theories/Props/C26.v
theories/Props/C27.v
theories/Props/C28.v
theories/Props/C29.v
theories/Props/C30.v
theories/Props/C31.v
theories/Props/C32.v
theories/Props/C33.v
theories/Props/C34.v
theories/Props/C35.v
theories/Props/C36.v
theories/Props/C37.v
theories/Props/C38.v
theories/Props/C39.v
theories/Props/C40.v
theories/Props/C41.v
theories/Props/C42.v
theories/Props/C43.v
theories/Props/C44.v
theories/Props/C45.v
theories/Props/C46.v
theories/Props/C47.v
theories/Props/C48.v
theories/Props/C49.v
theories/Props/C50.v
theories/Props/C51.v
theories/Props/C52.v
theories/Props/C53.v
theories/Props/C54.v
theories/Props/C55.v
theories/Props/C56.v
theories/Props/C57.v
theories/Props/C58.v
theories/Props/C59.v
theories/Props/C60.v
theories/Props/C61.v
theories/Props/C62.v
theories/Props/C63.v
theories/Props/C64.v
theories/Props/C65.v
theories/Props/C66.v
theories/Props/C67.v
theories/Props/C68.v
theories/Props/C69.v
theories/Props/C70.v
theories/Props/C71.v
theories/Props/C72.v
theories/Props/C73.v
theories/Props/C74.v
theories/Props/C75.v
theories/Props/C76.v
theories/Props/C77.v
theories/Props/C78.v
theories/Props/C79.v
theories/Props/C80.v
theories/Props/C81.v
theories/Props/C82.v
theories/Props/C83.v
theories/Props/C84.v
theories/Props/C85.v
theories/Props/C86.v
theories/Props/C87.v
theories/Props/C88.v
theories/Props/C89.v
theories/Props/C90.v
theories/Props/C91.v
theories/Props/C92.v
theories/Props/C93.v
theories/Props/C94.v
theories/Props/C95.v
theories/Props/C96.v
theories/Props/C97.v
theories/Props/C98.v
theories/Props/C99.v
theories/Spec/AccountingSpec.v
theories/Spec/AdminSpec.v
theories/Spec/AnswerSpec.v
theories/Spec/AuditSpec.v
theories/Spec/AuthDemo.v
theories/Spec/AuthSpec.v
theories/Spec/BacklogSpec.v
theories/Spec/BufferedSpec.v
theories/Spec/CgroupSpec.v
theories/Spec/ChannelSpec.v
theories/Spec/CipherFormat.v
theories/Spec/CipherSpec.v
theories/Spec/ClientSpec.v
theories/Spec/ClusterSpec.v
theories/Spec/ConfigSpec.v
theories/Spec/CounterSpec.v
theories/Spec/CredentialSpec.v
theories/Spec/CurveSpec.v
theories/Spec/CutSpec.v
theories/Spec/DelaySpec.v
theories/Spec/DyingSpec.v
theories/Spec/EndToEndSpec.v
theories/Spec/EnvironSpec.v
theories/Spec/ExitSpec.v
theories/Spec/FingerprintSpec.v
theories/Spec/FlowSpec.v
theories/Spec/ForwarderSpec.v
theories/Spec/FrameSpec.v
theories/Spec/GlobalAnswerSpec.v
theories/Spec/GlobalSpec.v
theories/Spec/InputSpec.v
theories/Spec/KexSpec.v
theories/Spec/KeyFormatSpec.v
theories/Spec/KeySpec.v
theories/Spec/LifetimeSpec.v
theories/Spec/LoginSpec.v
theories/Spec/MessageSpec.v
theories/Spec/MetricsSpec.v
theories/Spec/NamesSpec.v
theories/Spec/NetworkSpec.v
theories/Spec/OpenSpec.v
theories/Spec/OriginSpec.v
theories/Spec/OutputSpec.v
theories/Spec/PacketSpec.v
theories/Spec/PipelineSpec.v
theories/Spec/QuoteSpec.v
theories/Spec/RecvWindowSpec.v
theories/Spec/RekeySpec.v
theories/Spec/RelaySpec.v
theories/Spec/ReturnSpec.v
theories/Spec/RunSpec.v
theories/Spec/SessionRun.v
theories/Spec/SessionSpec.v
theories/Spec/StartupSpec.v
theories/Spec/TarpitSpec.v
theories/Spec/TerminalSpec.v
theories/Spec/TranslateSpec.v
theories/Spec/TunnelSpec.v
theories/Spec/VersionSpec.v
theories/Spec/WireSpec.v
