-Q theories Verif
theories/GoInt.v
theories/M_OutX.v
theories/M_InX.v
theories/L_Codec.v
theories/M_Value.v
theories/S_Wire.v
theories/S_Value.v
theories/L_Value.v
theories/L_Safe.v
theories/M_Packs.v
theories/S_Packs.v
theories/M_Steps.v
theories/S_Steps.v
theories/L_Packs.v
theories/M_Access.v
theories/M_Calls.v
theories/L_Access.v
theories/S_Codec.v
theories/P_Codec.v
theories/P_Value.v
theories/P_Packs.v
theories/M_Hash.v
theories/S_Hash.v
theories/L_Hash.v
theories/M_Util.v
theories/S_Util.v
theories/L_Util.v
theories/M_StrMatch.v
theories/S_Glob.v
theories/L_StrMatch.v
theories/P_Util.v
theories/M_Cache.v
theories/S_Cache.v
theories/L_Cache.v
theories/M_RWLock.v
theories/L_RWLock.v
theories/L_CacheMap.v
theories/P_Cache.v
theories/M_Udp.v
theories/S_Udp.v
theories/L_Udp.v
theories/P_Udp.v
theories/M_Float.v
theories/M_Meter.v
theories/S_Meter.v
theories/L_Meter.v
theories/L_MeterFloat.v
theories/P_Meter.v
theories/M_Text.v
theories/S_Text.v
theories/L_Text.v
theories/P_Text.v
theories/M_Profile.v
theories/S_Profile.v
theories/L_Profile.v
theories/P_Profile.v
theories/M_Sampler.v
theories/S_Sampler.v
theories/P_Sampler.v
theories/M_Trace.v
theories/L_Trace.v
theories/L_TraceRel.v
theories/S_Trace.v
theories/L_TraceInv.v
theories/L_TraceStart.v
theories/L_TraceSafe.v
theories/L_TraceActive.v
theories/M_TraceConc.v
theories/P_Trace.v
theories/L_TraceHist.v
theories/L_TraceFrame.v
theories/P_Trace2.v
theories/P_Trace3.v
theories/M_Dump.v
theories/S_Dump.v
theories/L_Dump.v
theories/P_Dump.v
theories/M_Conf.v
theories/S_Conf.v
theories/L_Conf.v
theories/P_Conf.v
theories/M_Tcp.v
theories/S_Tcp.v
theories/L_Tcp.v
theories/P_Tcp.v
theories/S_Ledger.v
theories/L_Ledger.v
theories/L_Ledger2.v
theories/L_Ledger3.v
theories/L_Ledger4.v
theories/L_Ledger5.v
theories/P_Ledger.v
theories/L_FloatReal.v
theories/P_Meter2.v
theories/M_MeterConc.v
theories/S_MeterConc.v
theories/L_MeterConc.v
theories/L_MeterConc2.v
theories/P_MeterConc.v
theories/M_Profiling.v
theories/S_Profiling.v
theories/L_Profiling.v
theories/P_Profiling.v
theories/S_EndToEnd.v
theories/L_EndToEnd.v
theories/P_EndToEnd.v
theories/M_Net.v
theories/S_Net.v
theories/L_Net.v
theories/P_Net.v
theories/P_Commands.v
theories/M_Agent.v
theories/S_Agent.v
theories/L_Agent.v
theories/P_Agent.v
theories/M_Key.v
theories/S_Key.v
theories/P_Key.v
theories/S_Session.v
theories/P_Session.v
theories/S_Request.v
theories/P_Request.v
theories/S_Resolve.v
theories/L_Resolve.v
theories/P_Resolve.v
theories/P_Resolve2.v
theories/M_ProfileConc.v
theories/S_ProfileConc.v
theories/L_ProfileConc.v
theories/L_ProfileConc2.v
theories/L_ProfileConc3.v
theories/P_ProfileConc.v
theories/M_Values.v
theories/S_Values.v
theories/L_Values.v
theories/P_Values.v
theories/M_Locks.v
theories/S_Locks.v
theories/L_Locks.v
theories/P_Locks.v
theories/M_SamplerConc.v
theories/S_SamplerConc.v
theories/L_SamplerConc.v
theories/P_SamplerConc.v
theories/M_NetLimit.v
theories/S_NetLimit.v
theories/L_NetLimit.v
theories/L_NetLimit2.v
theories/P_NetLimit.v
theories/M_Tasks.v
theories/S_Tasks.v
theories/L_Tasks.v
theories/P_Tasks.v
theories/P_TasksWire.v
theories/M_Defer.v
theories/S_Defer.v
theories/P_Defer.v
theories/M_Redirect.v
theories/S_Redirect.v
theories/L_Redirect.v
theories/P_Redirect.v
theories/M_Whole.v
theories/S_Whole.v
theories/L_Whole.v
theories/P_Whole.v
theories/S_Memory.v
theories/L_Memory.v
theories/P_Memory.v
theories/M_Files.v
theories/S_Files.v
theories/L_Files.v
theories/P_Files.v
theories/P_DumpPath.v
theories/M_Goid.v
theories/P_Goid.v
theories/M_Half.v
theories/S_Half.v
theories/L_Half.v
theories/P_Half.v
theories/M_Maps.v
theories/S_Maps.v
theories/L_Maps.v
theories/P_Maps.v
theories/L_ProfileConc4.v
theories/M_Alert.v
theories/S_Alert.v
theories/L_Alert.v
theories/P_Alert.v
theories/P_WholeFollows.v
theories/M_Show.v
theories/S_Show.v
theories/L_Show.v
theories/P_Show.v
theories/P_Account.v
theories/S_CacheConc.v
theories/M_CacheConc.v
theories/L_CacheConc.v
theories/P_CacheConc.v
theories/S_Isolation.v
theories/P_Isolation.v
theories/M_Stack.v
theories/S_Stack.v
theories/P_Stack.v
theories/P_Counts.v
theories/L_Headers.v
theories/P_Headers.v
theories/L_StuckProfile.v
theories/P_StuckProfile.v
theories/S_Sweep.v
theories/L_Sweep.v
theories/P_Sweep.v
theories/P_Whole2.v
theories/S_WholeNet.v
theories/P_Whole3.v