-Q theories Verif
theories/Base.v
theories/Cbc.v
theories/CbcProofs.v
theories/CbcSpec.v
theories/Ops.v
theories/OpsSpec.v
theories/OpsCbcProofs.v
theories/ToyEnv.v
theories/OpsProofs.v
theories/OpsProofs2.v
theories/OpsProofs3.v
theories/OpsProofs4.v
theories/OpsPadExact.v
theories/Bufs.v
theories/BufsProofs.v
theories/PropBufs.v
theories/Secrets.v
theories/SecretsStep.v
theories/SecretsProofs.v
theories/PropSecrets.v
theories/OpsFinal.v
theories/OpsClaims.v
theories/OpsRefute.v
theories/PropOps.v
theories/Ecdsa.v
theories/EcdsaSpec.v
theories/EcdsaProofs.v
theories/RsaRaw.v
theories/RsaRawProofs.v
theories/PropEcdsa.v
theories/Codec.v
theories/CodecProofs.v
theories/PropCodec.v
theories/Mech.v
theories/PropMech.v
theories/RwLock.v
theories/PropRwLock.v
theories/LoginRace.v
theories/PropLoginRace.v
theories/Object.v
theories/ObjectSpec.v
theories/ObjectProofs.v
theories/AttrProofs.v
theories/HistProofs.v
theories/GetProofs.v
theories/PropObject.v
theories/PropObject2.v
theories/Store.v
theories/Sys.v
theories/SysProofs.v
theories/SysProofs2.v
theories/SysProofs3.v
theories/SysProofs4.v
theories/ToySys.v
theories/LoginProofs.v
theories/PropSys1.v
theories/PropSys2.v
theories/RvProofs.v
theories/PropSys3.v
theories/StoreSpec.v
theories/StoreProofs.v
theories/WfProofs.v
theories/KeyProofs.v
theories/PropStore.v
theories/CrashProofs.v
theories/DiskProofs.v
theories/PropStore2.v
theories/SealProofs.v
theories/PropStore3.v
theories/ObjFrame.v
theories/ObjProofs.v
theories/HandleProofs.v
theories/QuotaProofs.v
theories/DiskHandles.v
theories/PropObj.v
theories/PropObj2.v
theories/PropObj3.v
theories/MarkProofs.v
theories/FindState.v
theories/SearchProofs.v
theories/PropFind.v
theories/PropKeys.v
theories/UseProofs.v
theories/PropInUse.v
theories/PropKeys2.v
theories/Threads.v
theories/ThreadsProofs.v
theories/PropThreads.v
theories/PinRace.v
theories/PropPinRace.v
theories/PropTight.v
theories/PropThreadsReach.v
theories/ObjRace.v
theories/PropObjRace.v
theories/LibRace.v
theories/PropLibRace.v
theories/SafeSpec.v
theories/SafeOps.v
theories/SafeObj.v
theories/SafeStore.v
theories/SafeSys.v
theories/PropSafe.v
theories/PropImport.v
theories/DhDer.v
theories/PropDhDer.v
theories/Info.v
theories/PropInfo.v
theories/Api.v
theories/PropApi.v
theories/Rng.v
theories/PropRng.v
theories/Names.v
theories/PropNames.v
theories/Fault.v
theories/FaultProofs.v
theories/FaultProofs2.v
theories/FaultProofs3.v
theories/FaultProofs4.v
theories/PropFault.v
theories/DurableProofs.v
theories/DurableKeys.v
theories/PropDurable.v
theories/Wipe.v
theories/PropWipe.v
theories/Procs.v
theories/ProcsProofs.v
theories/PropProcs.v
theories/Heap.v
theories/HeapProofs.v
theories/PropHeap.v
theories/Mem.v
theories/MemProofs.v
theories/MemProofs2.v
theories/PropMem.v
theories/Isolate.v
theories/IsolateProofs.v
theories/IsolateProofs2.v
theories/IsolateProofs3.v
theories/PropIsolate.v
theories/AttrFrame.v
theories/AttrProofs2.v
theories/PropAttrs.v
theories/OpLift.v
theories/Answers.v
theories/AnswersProofs.v
theories/AnswersProofs2.v
theories/PropAnswers.v
theories/KeyHeld.v
theories/PropHold.v
theories/SessRace.v
theories/SessRaceProofs.v
theories/SessRaceProofs2.v
theories/SessRaceProofs3.v
theories/PropSessRace.v
theories/PropMsg.v
theories/PropNonce.v
theories/Device.v
theories/DeviceProofs.v
theories/PropDevice.v
theories/Guard.v
theories/PropGuard.v
theories/Table.v
theories/TableProofs.v
theories/PropTable.v
theories/Seek.v
theories/PropSeek.v
theories/Job.v
theories/PropJob.v
theories/Note.v
theories/NoteProofs.v
theories/PropNote.v
theories/Archive.v
theories/ArchiveProofs.v
theories/PropArchive.v
theories/PropUse.v
theories/Vault.v
theories/PropVault.v
theories/PropSurvive.v
theories/PropEndure.v
theories/SurviveAny.v
theories/PropPrivate.v
theories/PropPublic.v
theories/PropDh.v
theories/PropEcPair.v
theories/PropMac.v
theories/PropSealed.v
theories/PropGcm.v
theories/PropDerive.v
theories/PropClosed.v
theories/InstCalls.v
theories/InstLasting.v
