-Q theories Verif
theories/Base.v
theories/Host.v
theories/Uint256.v
theories/Memory.v
theories/Opcodes.v
theories/Interp.v
theories/SpecEvm.v
theories/SpecCall.v
theories/SpecTrace.v
theories/SpecVm.v
theories/ArithFacts.v
theories/MemFacts.v
theories/JumpFacts.v
theories/SimBase.v
theories/SimOps.v
theories/SimOps2.v
theories/SimCall.v
theories/SpecFacts.v
theories/Sim.v
theories/Lru.v
theories/LruFacts.v
theories/LruConc.v
theories/LruConcFacts.v
theories/Sha3.v
theories/MemoFacts.v
theories/StackPool.v
theories/StackPoolFacts.v
theories/StackConc.v
theories/StackConcFacts.v
theories/Profiler.v
theories/ProfilerFacts.v
theories/Vm.v
theories/VmFacts.v
theories/SpecStep.v
theories/StepFacts.v
theories/Client.v
theories/GoAdapter.v
theories/ClientFacts.v
theories/SpecOps.v
theories/OpFacts.v
theories/OpFacts2.v
theories/SpecHost.v
theories/SpecFees.v
theories/SpecCause.v
theories/OpFacts3.v
theories/GoStorage.v
theories/OpFacts4.v
theories/OpFacts5.v
theories/OpFacts6.v
theories/FrameFacts.v
theories/ReasonFacts.v
theories/ApiFacts.v
theories/StaticFacts.v
theories/StoreFacts.v
theories/RunFacts.v
theories/FeeFacts.v
theories/SpecTop.v
theories/RefFacts.v
theories/Toy.v
theories/PropFacts.v
theories/PropFacts2.v
theories/PropFacts3.v
theories/PropFacts4.v
theories/PropFacts5.v
theories/SpecCache.v
theories/CacheFacts.v
theories/PropFacts6.v
theories/PropFacts7.v
theories/PropFacts8.v
theories/PropFacts9.v
theories/PropFacts10.v
theories/SpecObs.v
theories/Trace.v
theories/TraceVm.v
theories/TraceFacts.v
theories/PropFacts11.v
theories/Floria.v
theories/SpecTx.v
theories/FloriaFacts.v
theories/RunInv.v
theories/FloriaInv.v
theories/TxFacts.v
theories/TxFacts2.v
theories/TxFacts3.v
theories/TxFacts4.v
theories/TxFacts5.v
theories/TxFacts6.v
theories/TxFacts7.v
theories/Ledger.v
theories/PropsRun.v
theories/PropsCode.v
theories/PropsStack.v
theories/PropsMem.v
theories/PropsArith.v
theories/PropsStore.v
theories/PropsCall.v
theories/PropsCache.v
theories/PropsPool.v
theories/PropsStep.v
theories/PropsMisc.v
theories/PropsObs.v
theories/PropsEnv.v
theories/GoTypes.v
theories/GoTypesFacts.v
theories/PropsTx.v
theories/PropsGo.v
theories/LfvmCode.v
theories/Lfvm.v
theories/LfvmSim.v
theories/LfvmOps.v
theories/LfvmConv.v
theories/LfvmExec.v
theories/LfvmStep.v
theories/LfvmSuper.v
theories/SpecLfvm.v
theories/LfvmRun.v
theories/LfvmToy.v
theories/PropsLfvm.v
theories/Keccak.v
theories/SpecKeccak.v
theories/KeccakRound.v
theories/KeccakFacts.v
theories/HashCache.v
theories/HashCacheFacts.v
theories/HashTop.v
theories/PropsHash.v
theories/LfvmCache.v
theories/LfvmCacheFacts.v
theories/PropsConv.v
theories/SuperFacts.v
theories/PropsSuper.v
theories/Ct.v
theories/SpecCt.v
theories/CtMap.v
theories/CtFacts.v
theories/PropsCt.v
theories/CtRules.v
theories/SpecRules.v
theories/CtRuleFacts.v
theories/CtMemFacts.v
theories/CtSound.v
theories/CtSound2.v
theories/CtSound3.v
theories/CtSound4.v
theories/CtSound5.v
theories/CtSound6.v
theories/CtSound7.v
theories/CtSound8.v
theories/CtRulesTop.v
theories/CtCover.v
theories/PropsRules.v
theories/CtDriver.v
theories/CtEnv.v
theories/SpecDriver.v
theories/CtPick.v
theories/CtDriverFacts.v
theories/PropsDriver.v
theories/CtSolve.v
theories/SpecSolve.v
theories/CtSolveFacts.v
theories/CtGen.v
theories/SpecGen.v
theories/CtStackFacts.v
theories/CtStorageFacts.v
theories/CtGenTerm.v
theories/CtTransientFacts.v
theories/PropsGen.v
theories/CtCodeGen.v
theories/SpecCode.v
theories/CtCodeGenFacts.v
theories/CtCodeGenFacts2.v
theories/PropsCodeGen.v
theories/SpecWorld.v
theories/CtWorldFacts.v
theories/PropsWorld.v
theories/CtContext.v
theories/SpecContext.v
theories/CtContextFacts.v
theories/CtBlockFacts.v
theories/PropsContext.v
theories/CtAccounts.v
theories/SpecAccounts.v
theories/CtAccountsFacts.v
theories/CtAccountsFacts2.v
theories/PropsAccounts.v
theories/CtState.v
theories/SpecState.v
theories/CtStateFacts.v
theories/CtStateFacts2.v
theories/CtStateFacts3.v
theories/CtStateFacts4.v
theories/PropsState.v
theories/CtRestrict.v
theories/SpecRestrict.v
theories/CtRestrictFacts.v
theories/CtRestrictRules.v
theories/CtRestrictAgree.v
theories/PropsRestrict.v
theories/CtEnum.v
theories/SpecEnum.v
theories/CtEnumFacts.v
theories/CtEnumFacts2.v
theories/PropsEnum.v
