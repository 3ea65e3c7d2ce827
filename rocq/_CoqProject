-Q theories Verif
theories/Lib/Bytes.v
theories/Lib/Digits.v
theories/Lib/Str.v
theories/Model/Admin.v
theories/Model/Boot.v
theories/Model/Cache.v
theories/Model/Chain.v
theories/Model/ClientConc.v
theories/Model/ClientGauge.v
theories/Model/ConcCache.v
theories/Model/Concurrent.v
theories/Model/Conn.v
theories/Model/Data.v
theories/Model/Descriptors.v
theories/Model/Fetch.v
theories/Model/Format.v
theories/Model/Go.v
theories/Model/GoTime.v
theories/Model/Heap.v
theories/Model/HttpMux.v
theories/Model/Json.v
theories/Model/JsonFile.v
theories/Model/JsonText.v
theories/Model/Main.v
theories/Model/MetricTimes.v
theories/Model/Metrics.v
theories/Model/MonJson.v
theories/Model/MonPage.v
theories/Model/MonProc.v
theories/Model/Mutex.v
theories/Model/Netip.v
theories/Model/OneOff.v
theories/Model/PdqSort.v
theories/Model/Pdu.v
theories/Model/Poller.v
theories/Model/Process.v
theories/Model/Rtrdump.v
theories/Model/Rtrmon.v
theories/Model/Session.v
theories/Model/Silent.v
theories/Model/Slurm.v
theories/Model/SshAuth.v
theories/Model/SshConn.v
theories/Model/State.v
theories/Model/Ticker.v
theories/Model/Trigger.v
theories/Spec/AddrText.v
theories/Spec/Admin.v
theories/Spec/Agree.v
theories/Spec/Answered.v
theories/Spec/Apart.v
theories/Spec/Arrival.v
theories/Spec/Auth.v
theories/Spec/Behind.v
theories/Spec/Boot.v
theories/Spec/Cadence.v
theories/Spec/Calendar.v
theories/Spec/Chain.v
theories/Spec/Clash.v
theories/Spec/ClientNet.v
theories/Spec/Clients.v
theories/Spec/Collect.v
theories/Spec/Converge.v
theories/Spec/Conversation.v
theories/Spec/Daemon.v
theories/Spec/Descriptors.v
theories/Spec/DiffJson.v
theories/Spec/Download.v
theories/Spec/EndToEnd.v
theories/Spec/Endpoints.v
theories/Spec/Exceptions.v
theories/Spec/Fading.v
theories/Spec/Flags.v
theories/Spec/Follow.v
theories/Spec/Gauges.v
theories/Spec/Gone.v
theories/Spec/Held.v
theories/Spec/History.v
theories/Spec/Input.v
theories/Spec/Isolated.v
theories/Spec/JsonSame.v
theories/Spec/Limit.v
theories/Spec/Locking.v
theories/Spec/MonPage.v
theories/Spec/MonRun.v
theories/Spec/Monitor.v
theories/Spec/Net.v
theories/Spec/NewFile.v
theories/Spec/NotifyRate.v
theories/Spec/OneOff.v
theories/Spec/Order.v
theories/Spec/Overlap.v
theories/Spec/Places.v
theories/Spec/Polling.v
theories/Spec/Reached.v
theories/Spec/Refresh.v
theories/Spec/Requests.v
theories/Spec/Response.v
theories/Spec/Restart.v
theories/Spec/Rfc8210.v
theories/Spec/Rfc8259.v
theories/Spec/Rfc8416.v
theories/Spec/Router.v
theories/Spec/Rov.v
theories/Spec/RovAge.v
theories/Spec/SelfCheck.v
theories/Spec/Sets.v
theories/Spec/Silent.v
theories/Spec/SlurmExact.v
theories/Spec/SlurmNull.v
theories/Spec/Snapshot.v
theories/Spec/SshSpec.v
theories/Spec/Timers.v
theories/Spec/Wire.v
theories/Proofs/AddrTextP.v
theories/Proofs/AdminP.v
theories/Proofs/AgreeP.v
theories/Proofs/AnsweredP.v
theories/Proofs/ApartP.v
theories/Proofs/ArrivalP.v
theories/Proofs/AuthP.v
theories/Proofs/BehindP.v
theories/Proofs/BehindRouterP.v
theories/Proofs/CacheP.v
theories/Proofs/CalendarP.v
theories/Proofs/ChainP.v
theories/Proofs/ClashP.v
theories/Proofs/ClientConcP.v
theories/Proofs/ClientGaugeP.v
theories/Proofs/ConcCacheP.v
theories/Proofs/ConnP.v
theories/Proofs/ConvergeP.v
theories/Proofs/ConversationP.v
theories/Proofs/DataP.v
theories/Proofs/DiffJsonP.v
theories/Proofs/DumpP.v
theories/Proofs/DumpP2.v
theories/Proofs/EndToEndP.v
theories/Proofs/ExceptionsP.v
theories/Proofs/FadeP.v
theories/Proofs/FetchP.v
theories/Proofs/FetchP2.v
theories/Proofs/FollowP.v
theories/Proofs/FormatP.v
theories/Proofs/GaugeP.v
theories/Proofs/GoTimeP.v
theories/Proofs/GoneP.v
theories/Proofs/HeapP.v
theories/Proofs/HeldP.v
theories/Proofs/HttpDateP.v
theories/Proofs/HttpMuxP.v
theories/Proofs/IsolatedP.v
theories/Proofs/JsonCutP.v
theories/Proofs/JsonDocP.v
theories/Proofs/JsonDumpP.v
theories/Proofs/JsonFileP.v
theories/Proofs/JsonFloatP.v
theories/Proofs/JsonNumP.v
theories/Proofs/JsonOrderP.v
theories/Proofs/JsonP.v
theories/Proofs/JsonPrintP.v
theories/Proofs/JsonReadP.v
theories/Proofs/JsonSlurmP.v
theories/Proofs/JsonStateP.v
theories/Proofs/JsonStrP.v
theories/Proofs/JsonTextP.v
theories/Proofs/JsonTextP2.v
theories/Proofs/MetricTimesP.v
theories/Proofs/MissedP.v
theories/Proofs/MonPageP.v
theories/Proofs/MonProcP.v
theories/Proofs/MonRunP.v
theories/Proofs/MonitorP.v
theories/Proofs/MonitorP2.v
theories/Proofs/MutexP.v
theories/Proofs/NetP.v
theories/Proofs/NetP2.v
theories/Proofs/NetP3.v
theories/Proofs/NetP4.v
theories/Proofs/NewFileP.v
theories/Proofs/NotifyRateP.v
theories/Proofs/OldDateP.v
theories/Proofs/OverlapP.v
theories/Proofs/PanicP.v
theories/Proofs/PdqSortP.v
theories/Proofs/PollerP.v
theories/Proofs/ProcessP.v
theories/Proofs/ReachedP.v
theories/Proofs/RefillDaemonP.v
theories/Proofs/RefillP.v
theories/Proofs/RestartP.v
theories/Proofs/RouterP.v
theories/Proofs/RovAgeP.v
theories/Proofs/RovOrderP.v
theories/Proofs/RovP.v
theories/Proofs/SelfCheckP.v
theories/Proofs/SessionP.v
theories/Proofs/SlurmExactP.v
theories/Proofs/SlurmP.v
theories/Proofs/SshConnP.v
theories/Proofs/StateP.v
theories/Proofs/TickerP.v
theories/Proofs/TimersP.v
theories/Proofs/ValidP.v
theories/Proofs/WireP.v
theories/Proofs/WireP2.v
theories/Props/AddrTextProps.v
theories/Props/AdminProps.v
theories/Props/AgreeProps.v
theories/Props/AnsweredProps.v
theories/Props/ApartProps.v
theories/Props/ArrivalProps.v
theories/Props/AuthProps.v
theories/Props/BehindProps.v
theories/Props/BootProps.v
theories/Props/CacheProps.v
theories/Props/ChainProps.v
theories/Props/ClashProps.v
theories/Props/ClientProps.v
theories/Props/ConcCacheProps.v
theories/Props/ConcProps.v
theories/Props/ConnProps.v
theories/Props/ConvergeProps.v
theories/Props/DaemonProps.v
theories/Props/DescriptorProps.v
theories/Props/DiffProps.v
theories/Props/DumpExactProps.v
theories/Props/DumpProps.v
theories/Props/EndToEndProps.v
theories/Props/EndpointProps.v
theories/Props/ExactDialProps.v
theories/Props/ExactFlagsProps.v
theories/Props/ExactNoticeProps.v
theories/Props/FadeProps.v
theories/Props/FatalProps.v
theories/Props/FetchProps.v
theories/Props/FlagProps.v
theories/Props/GaugeProps.v
theories/Props/GoneProps.v
theories/Props/HeapProps.v
theories/Props/HeldProps.v
theories/Props/HostBitsProps.v
theories/Props/InputProps.v
theories/Props/IsolatedProps.v
theories/Props/JsonProps.v
theories/Props/KeyTwiceProps.v
theories/Props/KeysSentProps.v
theories/Props/LimitProps.v
theories/Props/LockProps.v
theories/Props/MetricTimeProps.v
theories/Props/MetricsProps.v
theories/Props/MissedProps.v
theories/Props/MonPageProps.v
theories/Props/MonPageUrlProps.v
theories/Props/MonRunProps.v
theories/Props/MonitorProps.v
theories/Props/NewFileProps.v
theories/Props/NotifyRateProps.v
theories/Props/NullProps.v
theories/Props/ObjectsProps.v
theories/Props/OneOffProps.v
theories/Props/OrderProps.v
theories/Props/OverlapProps.v
theories/Props/PanicProps.v
theories/Props/PollProps.v
theories/Props/QueryProps.v
theories/Props/ReachedProps.v
theories/Props/RepoTests.v
theories/Props/RestartProps.v
theories/Props/RouterProps.v
theories/Props/RovAgeProps.v
theories/Props/RovOrderProps.v
theories/Props/RovProps.v
theories/Props/SegmentProps.v
theories/Props/SelfCheckProps.v
theories/Props/SessionProps.v
theories/Props/SilentProps.v
theories/Props/SlurmExactProps.v
theories/Props/SpellingProps.v
theories/Props/SshProps.v
theories/Props/StateProps.v
theories/Props/TickerProps.v
theories/Props/TimeProps.v
theories/Props/TimerFlagProps.v
theories/Props/TimerProps.v
theories/Props/TornProps.v
theories/Props/UndatedProps.v
theories/Props/ValidProps.v
theories/Props/VerdictProps.v
theories/Props/WireProps.v
