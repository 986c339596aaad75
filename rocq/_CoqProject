-Q theories Verif

theories/Base.v
theories/Buffer.v
theories/BufferSpec.v
theories/BufferProofs.v
theories/PropBuffer.v
theories/Types.v
theories/Name.v
theories/Reader.v
theories/NameSpec.v
theories/NameProofs.v
theories/NameDecode.v
theories/PropName.v
theories/Codec.v
theories/CodecSpec.v
theories/Utf8.v
theories/CodecWrite.v
theories/CodecMessage.v
theories/CodecRead.v
theories/CodecSafe.v
theories/CodecFacts.v
theories/PropCodec1.v
theories/PropCodec2.v
theories/PropCodec3.v
theories/PropTypes.v
theories/Zone.v
theories/Tokens.v
theories/Parser.v
theories/ZoneSpec.v
theories/ZoneProofs.v
theories/NsHandler.v
theories/NsSpec.v
theories/PropNs.v
theories/EncodeTotal.v
theories/PropNs2.v
theories/PropZone.v
theories/LoadSpec.v
theories/LoadProofs.v
theories/PropLoad.v
theories/PropServe.v
theories/LexSpec.v
theories/TokenSpec.v
theories/TokenProofs.v
theories/TokenSim.v
theories/PropTok.v
theories/LexProofs.v
theories/ZoneFileSpec.v
theories/ZoneFileRun.v
theories/ZoneFileDenote.v
theories/ZoneFileLoad.v
theories/ZoneFileTotal.v
theories/PropZoneFile.v
theories/ZoneFileComplete.v
theories/ZoneLoadSpec.v
theories/PropZoneLoad.v
theories/PropLex.v
theories/Cache.v
theories/CacheSpec.v
theories/PropCache.v
theories/Resolver.v
theories/ResolverLists.v
theories/ResolverSpec.v
theories/ResolverInv.v
theories/ResolverRun.v
theories/ResolverFacts.v
theories/ResolverFuel.v
theories/ResolverEx.v
theories/PropResolver1.v
theories/PropResolver2.v
theories/ResolverStays.v
theories/PropResolver3.v
theories/PropResolver4.v
theories/PropResolver5.v
theories/PropResolver6.v
theories/PropResolver7.v
theories/PropTalk.v
theories/HealthSpec.v
theories/HealthRun.v
theories/PropHealth.v
theories/HealthEx.v
theories/HealthEx2.v
theories/PublishSpec.v
theories/PropPublish.v
theories/PublishEx.v
theories/TellSpec.v
theories/PropTell.v
theories/Trace.v
theories/TraceSpec.v
theories/PropTrace.v
theories/RsHandler.v
theories/PropRs.v
theories/PropTrace2.v
theories/Pool.v
theories/PoolSpec.v
theories/PoolInv.v
theories/PropPool.v
theories/PropServer.v
theories/Conf.v
theories/PropConf.v
theories/Setup.v
theories/PropSetup.v
theories/ClientSpec.v
theories/PropClient.v
theories/PublishEx2.v
theories/NamePathSpec.v
theories/PropName2.v
theories/PropCodec4.v
theories/CrashSpec.v
theories/PropCrash.v
theories/PropServer2.v
theories/AccountSpec.v
theories/PropAccount.v
theories/CrashSpec2.v
theories/PropCrash2.v
theories/LocalSpec.v
theories/PropLocal.v
theories/LocalSpec2.v
theories/PropLocal2.v
theories/ResolverNest.v
theories/NestSpec.v
theories/NestRun.v
theories/PropNest.v
theories/Program.v
theories/ProgramSpec.v
theories/PropProgram.v
theories/PropProgram2.v
theories/Process.v
theories/ProcessEnds.v
theories/ProcessRun.v
theories/ProcessSafe.v
theories/Many.v
theories/PropMany.v
theories/PropMany2.v
theories/ManyTrue.v
theories/PropManyTrue.v
theories/ManyClient.v
theories/Report.v
theories/ReportErase.v
theories/ReportSim.v
theories/ReportNear.v
theories/ReportOwn.v
theories/ReportWithin.v
theories/ReportPrefix.v
theories/ReportStart.v
theories/ReportSub.v
theories/PropReport.v
theories/History.v
theories/PropHistory.v
theories/Server.v
theories/PropServing.v
theories/ServerEx.v
theories/PropServing2.v
