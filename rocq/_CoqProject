-Q theories Verif
theories/Bytes.v
theories/BytesFacts.v
theories/Crc32.v
theories/Crc32Facts.v
theories/Layout.v
theories/LayoutFacts.v
theories/Store.v
theories/CheckFacts.v
theories/PropCodec.v
theories/Text.v
theories/Commands.v
theories/Ghost.v
theories/DataFacts.v
theories/TableFacts.v
theories/SpecKV.v
theories/Machine.v
theories/Reach.v
theories/UserInv.v
theories/UserSteps.v
theories/UserLoad.v
theories/CrashPre.v
theories/TextFacts.v
theories/UserReq.v
theories/UserRun.v
theories/UserMove.v
theories/KvFacts.v
theories/PropKV.v
theories/CrashModel.v
theories/CrashSpec.v
theories/CrashFacts.v
theories/PropCrash.v
theories/SeqMap.v
theories/SpecSeq.v
theories/SeqInv.v
theories/SeqSteps.v
theories/SeqLoad.v
theories/SeqReq.v
theories/SeqReach.v
theories/SeqRun.v
theories/SeqFacts.v
theories/PropSeq.v
theories/ReplyQueue.v
theories/ReplyFacts.v
theories/Resp.v
theories/RespSpec.v
theories/RespFacts.v
theories/PropNet.v
theories/Sha1.v
theories/SpecSha.v
theories/Sha1Facts.v
theories/Dispatch.v
theories/Namespace.v
theories/System.v
theories/Server.v
theories/SpecAuth.v
theories/AuthFacts.v
theories/WaitFacts.v
theories/PropAuth.v
theories/FrameFacts.v
theories/SpecServer.v
theories/IsolFacts.v
theories/SrvInv.v
theories/SrvRun.v
theories/NamesFacts.v
theories/ConfFacts.v
theories/ProtectFacts.v
theories/ServerFacts.v
theories/PropServer.v
theories/Scan.v
theories/SpecScan.v
theories/ScanFacts.v
theories/ScanRun.v
theories/ScanTop.v
theories/ScanMix.v
theories/PropScan.v
theories/History.v
theories/SpecHist.v
theories/HistFacts.v
theories/PropHist.v
theories/HistSeq.v
theories/ScanMixSeq.v
theories/PropScanSeq.v
theories/PropHistSeq.v
theories/SpecFiles.v
theories/FileFacts.v
theories/DataLog.v
theories/RawFacts.v
theories/PropFiles.v
theories/Rebuild.v
theories/SpecRebuild.v
theories/RebuildFacts.v
theories/PropRebuild.v
theories/SpecDirty.v
theories/DirtyFacts.v
theories/PropDirty.v
theories/Branch.v
theories/SpecTable.v
theories/BranchFacts.v
theories/PropTable.v
theories/Api.v
theories/SpecApi.v
theories/ApiFacts.v
theories/PropApi.v
theories/SpecCheck.v
theories/CheckCmd.v
theories/PropCheck.v
theories/SpecFaults.v
theories/FaultFacts.v
theories/FaultSeq.v
theories/PropFaults.v
theories/SeqLocate.v
theories/PropLocate.v
theories/Tools.v
theories/SpecTools.v
theories/ToolFacts.v
theories/EditFacts.v
theories/DumpFacts.v
theories/QuickFacts.v
theories/PropTools.v
theories/PropEdit.v
theories/PropDump.v
theories/Net.v
theories/SpecNet.v
theories/NetFacts.v
theories/NetDefined.v
theories/NetClose.v
theories/NetStop.v
theories/PropLoop.v
theories/ScanTotal.v
theories/SpecDefined.v
theories/SrvDefined.v
theories/PropDefined.v
theories/ServerCrash.v
theories/SpecSrvCrash.v
theories/StartCut.v
theories/SrvCrash.v
theories/PropSrvCrash.v
theories/SpecDamage.v
theories/DamageFacts.v
theories/PropDamage.v
theories/SpecStart.v
theories/StartFacts.v
theories/PropStart.v
theories/SpecSecret.v
theories/SecretFacts.v
theories/PropSecret.v
theories/SpecMirror.v
theories/MirrorFacts.v
theories/PropMirror.v
theories/DbSync.v
theories/SpecSync.v
theories/SyncFacts.v
theories/PropSync.v
theories/DbReplicate.v
theories/RepFacts.v
theories/PropRep.v
theories/Hooks.v
theories/SpecHooks.v
theories/HookFacts.v
theories/PropHooks.v
theories/Lock.v
theories/SpecLock.v
theories/LockFacts.v
theories/PropLock.v
theories/JumpHook.v
theories/SpecBackup.v
theories/BackupFacts.v
theories/PropBackup.v
theories/NsHook.v
theories/SpecNotify.v
theories/NotifyFacts.v
theories/PropNotify.v
theories/Options.v
theories/SpecOptions.v
theories/OptionFacts.v
theories/PropOptions.v
theories/SpecCursor.v
theories/CursorFacts.v
theories/PropCursor.v
theories/SpecPosition.v
theories/PositionFacts.v
theories/PropPosition.v
