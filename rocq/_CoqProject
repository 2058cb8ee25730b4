-Q theories Verif
theories/Libc.v
theories/Machine.v
theories/Bpf.v
theories/SeccompRet.v
theories/Asm.v
theories/Vm.v
theories/Promises.v
theories/Filters.v
theories/Errors.v
theories/Kernel.v
theories/World.v
theories/Testkit.v
theories/Spec.v
theories/DocSpec.v
theories/VmSpec.v
theories/TextSpec.v
theories/FragProofs.v
theories/PolicyProofs.v
theories/PolicyFacts.v
theories/NeedFacts.v
theories/VmProofs.v
theories/VmFacts.v
theories/KernelVmProofs.v
theories/AsmProofs.v
theories/CodeProofs.v
theories/PledgeProofs.v
theories/WorldProofs.v
theories/StackProofs.v
theories/HistoryProofs.v
theories/DeathProofs.v
theories/LiveProofs.v
theories/JustProofs.v
theories/AloneProofs.v
theories/RunProofs.v
theories/LinkProofs.v
theories/Demo.v
theories/DocFacts.v
theories/ExactFacts.v
theories/ReachFacts.v
theories/SumFacts.v
theories/AsmSpec.v
theories/ShapeFacts.v
theories/ErrorFacts.v
theories/RepoTests.v
theories/PropsAsm.v
theories/PropsVm.v
theories/PropsPolicy.v
theories/PropsPledge.v
theories/PropsRun.v
theories/PropsLink.v
theories/PropsNeeds.v
theories/PropsStack.v
theories/PropsHistory.v
theories/PropsDeath.v
theories/PropsLive.v
theories/PropsDoc.v
theories/PropsExact.v
theories/PropsReach.v
theories/PropsSum.v
theories/Helpers.v
theories/HelperSpec.v
theories/HelperFacts.v
theories/PropsHelper.v
theories/IntTests.v
theories/IntFacts.v
theories/PropsInt.v
theories/WordSpec.v
theories/WordFacts.v
theories/PropsWord.v
theories/OldKernel.v
theories/OldFacts.v
theories/PropsOld.v
theories/SameFacts.v
theories/PropsSame.v
theories/RuleFacts.v
theories/PropsRule.v
theories/PropsShape.v
theories/PropsStep.v
theories/PropsText.v
theories/CostSpec.v
theories/CostFacts.v
theories/PropsCost.v
theories/ExecFacts.v
theories/PropsExec.v
theories/EndFacts.v
theories/PropsEnd.v
theories/StrictFacts.v
theories/PropsStrict.v
theories/ChangeFacts.v
theories/PropsChange.v
theories/AcceptFacts.v
theories/PropsAccept.v
theories/UnnoticedFacts.v
theories/PropsUnnoticed.v
theories/ApartFacts.v
theories/RenameSpec.v
theories/RenameFacts.v
theories/PropsApart.v
theories/InterleaveFacts.v
theories/PropsInterleave.v
theories/CommuteSpec.v
theories/CommuteFacts.v
theories/PropsCommute.v
theories/WholeFacts.v
theories/PropsWhole.v
theories/TokenSpec.v
theories/TokenFacts.v
theories/PropsToken.v
theories/KernelCache.v
theories/CacheSpec.v
theories/CacheFacts.v
theories/PropsCache.v
theories/SockFacts.v
theories/PropsSock.v
theories/ShortSpec.v
theories/ShortFacts.v
theories/PropsShort.v
theories/NumberSpec.v
theories/NumberFacts.v
theories/PropsNumber.v
theories/MeetSpec.v
theories/MeetFacts.v
theories/PropsMeet.v
