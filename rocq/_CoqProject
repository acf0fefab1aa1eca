-Q theories Verif
theories/Bytes.v
theories/Err.v
theories/FS.v
theories/Prog.v
theories/Pktline.v
theories/Args.v
theories/Local.v
theories/Processor.v
theories/Transfer.v
theories/Sha256.v
theories/Rfc3339.v
theories/Transcripts.v
theories/GitAt.v
theories/RecentRefs.v
theories/Pager.v
theories/Wp.v
theories/ByteFacts.v
theories/PktFacts.v
theories/ReaderFacts.v
theories/Spec.v
theories/Frag.v
theories/PktProofs.v
theories/Props_Pktline.v
theories/TextProofs.v
theories/Props_Text.v
theories/Regex.v
theories/SpecGit.v
theories/RegexFacts.v
theories/SpecRegex.v
theories/RegexRead.v
theories/GitProofs.v
theories/Props_Git.v
theories/FsFacts.v
theories/Rg.v
theories/ServerEv.v
theories/IoFacts.v
theories/SpecStore.v
theories/ObjProofs.v
theories/StoreProofs.v
theories/GetProofs.v
theories/UploadSure.v
theories/ReadOnly.v
theories/Props_Store.v
theories/SpecServer.v
theories/SeqIo.v
theories/SeqFs.v
theories/SeqCmd.v
theories/Session.v
theories/SessionFacts.v
theories/SessionProps.v
theories/Faults.v
theories/Props_Server.v
theories/SpecEnd.v
theories/Total.v
theories/Props_End.v
theories/SpecLast.v
theories/LastProofs.v
theories/Props_Last.v
theories/SpecUpload.v
theories/SpecPerm.v
theories/Eof.v
theories/UploadAny.v
theories/PermProofs.v
theories/Props_Upload.v
theories/SpecLock.v
theories/LockProofs.v
theories/LockSeq.v
theories/LockLive.v
theories/LockLog.v
theories/LockSession.v
theories/Props_Lock.v
theories/SpecLines.v
theories/LinesProofs.v
theories/Props_Lines.v
theories/SpecFrame.v
theories/Wpr.v
theories/FrameProofs.v
theories/Props_Frame.v
theories/SpecSecret.v
theories/SecretProofs.v
theories/Props_Secret.v
theories/SpecTalk.v
theories/Mon.v
theories/TalkProofs.v
theories/GoneProofs.v
theories/Props_Talk.v
theories/SpecBounds.v
theories/BoundsProofs.v
theories/LookProofs.v
theories/Props_Bounds.v
theories/Main.v
theories/SpecMain.v
theories/MainProofs.v
theories/Props_Main.v
theories/SpecOdd.v
theories/OddProofs.v
theories/Props_Odd.v
theories/SpecInput.v
theories/InputProofs.v
theories/Props_Input.v
theories/Acts.v
theories/SpecActs.v
theories/ActsProofs.v
theories/Props_Acts.v
theories/SpecAll.v
theories/AllProofs.v
theories/Props_All.v
theories/LossyFacts.v
theories/Shape.v
theories/Rgt.v
theories/SpecTogether.v
theories/RgtSound.v
theories/TogetherCmd.v
theories/TogetherProofs.v
theories/TogetherFacts.v
theories/Props_Together.v
theories/SpecBeside.v
theories/BesideFacts.v
theories/Props_Beside.v
theories/FailProofs.v
theories/Props_Fail.v
theories/SpecFault.v
theories/FaultProofs.v
theories/FaultFacts.v
theories/Props_Fault.v
theories/SpecLockDir.v
theories/LockDirProofs.v
theories/ClutterProofs.v
theories/Props_LockDir.v
theories/SpecCalls.v
theories/CallsProofs.v
theories/Props_Calls.v
theories/SpecDamage.v
theories/DamageProofs.v
theories/Props_Damage.v
theories/SpecStart.v
theories/StartProofs.v
theories/Props_Start.v
theories/SpecRound.v
theories/RoundFacts.v
theories/RoundProofs.v
theories/RoundMain.v
theories/Props_Round.v
theories/SpecTruth.v
theories/TruthProofs.v
theories/Props_Truth.v
theories/SpecWords.v
theories/WordsProofs.v
theories/Props_Words.v
theories/SpecPower.v
theories/SpecWorn.v
theories/WornProofs.v
theories/PowerProofs.v
theories/Props_Power.v
theories/Props_Worn.v
theories/SpecPrune.v
theories/PruneProofs.v
theories/Props_Prune.v
theories/SpecPush.v
theories/PushProofs.v
theories/Props_Push.v
theories/SpecWho.v
theories/WhoProofs.v
theories/Props_Who.v
theories/SpecHeld.v
theories/HeldProofs.v
theories/Props_Held.v
theories/SpecComes.v
theories/ComesProofs.v
theories/Props_Comes.v
theories/SpecLedger.v
theories/LedgerProofs.v
theories/ExactProofs.v
theories/Props_Exact.v
theories/Props_Now.v
theories/Props_Ledger.v
theories/Props_Owner.v
