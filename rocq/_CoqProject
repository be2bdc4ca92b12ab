-Q theories Verif
theories/Base.v
theories/Text.v
theories/Utils.v
theories/Win.v
theories/Errors.v
theories/Info.v
theories/Common.v
theories/Msg.v
theories/Reply.v
theories/Ntlm.v
theories/Prog.v
theories/Client.v
theories/Uri.v
theories/Spec.v
theories/BaseFacts.v
theories/RunFacts.v
theories/SegFacts.v
theories/SpecFacts.v
theories/InfoFacts.v
theories/TextFacts.v
theories/ClientFacts.v
theories/Api.v
theories/MsgFacts.v
theories/SpecReply.v
theories/SpecCrash.v
theories/ReplyFacts.v
theories/SpecCall.v
theories/CollectFacts.v
theories/CallFacts.v
theories/FindFacts.v
theories/Sample.v
theories/NoiseFacts.v
theories/LeaveFacts.v
theories/StreamFacts.v
theories/SpecMsg.v
theories/SizeFacts.v
theories/ReqFacts.v
theories/Flow.v
theories/FlowFacts.v
theories/WrapFacts.v
theories/AskFacts.v
theories/AnswerFacts.v
theories/LoopFacts.v
theories/DownloadFacts.v
theories/TransFacts.v
theories/EndFacts.v
theories/ListFacts.v
theories/DrainFacts.v
theories/MemFacts.v
theories/SpecNtlm.v
theories/ResultFacts.v
theories/NtlmFacts.v
theories/SpecLogin.v
theories/OpenFacts.v
theories/TwinFacts.v
theories/SessionFacts.v
theories/P_Ntlm.v
theories/ConnFacts.v
theories/P_Open.v
theories/SpecRemote.v
theories/RemoteFacts.v
theories/RefServer.v
theories/RefFacts.v
theories/FileService.v
theories/FileFacts.v
theories/SpecAccount.v
theories/AccountFacts.v
theories/Gate.v
theories/GateFacts.v
theories/P_Remote.v
theories/P_Session.v
theories/P_Limits.v
theories/Display.v
theories/DisplayFacts.v
theories/SpecNumber.v
theories/NumberFacts.v
theories/P_Display.v
theories/SpecUri.v
theories/UriFacts.v
theories/P_Uri.v
theories/P_Time.v
theories/Crypto.v
theories/Tests.v
theories/Witness.v
theories/P_Requests.v
theories/P_Text.v
theories/P_Calls.v
theories/P_Stream.v
theories/P_Trans.v
theories/P_Download.v
theories/P_Crash.v
theories/P_Replies.v
theories/SpecDrop.v
theories/DropFacts.v
theories/P_Drop.v
theories/SpecFetch.v
theories/FetchFacts.v
theories/P_Fetch.v
theories/WireFacts.v
theories/P_Wire.v
theories/SpecMirror.v
theories/MirrorFacts.v
theories/P_Mirror.v
theories/SpecListing.v
theories/ListingFacts.v
theories/P_Listing.v
theories/SpecTrust.v
theories/TrustFacts.v
theories/P_Trust.v
theories/SpecPool.v
theories/PoolFacts.v
theories/PoolFileFacts.v
theories/P_Pool.v
theories/SpecBreak.v
theories/BreakFacts.v
theories/P_Break.v
theories/PairFacts.v
theories/P_Pair.v
theories/SpecBlame.v
theories/BlameFacts.v
theories/P_Blame.v
theories/SpecBuild.v
theories/BuildFacts.v
theories/P_Build.v
theories/SpecShare.v
theories/ShareFacts.v
theories/P_Share.v
theories/SpecFault.v
theories/FaultFacts.v
theories/P_Fault.v
theories/SpecWild.v
theories/WildFacts.v
theories/P_Wild.v
theories/SpecUpper.v
theories/UpperFacts.v
theories/P_Upper.v
theories/SpecLengths.v
theories/LengthsFacts.v
theories/P_Lengths.v
theories/Debug.v
theories/SpecLiteral.v
theories/DebugFacts.v
theories/P_Debug.v
theories/SpecReading.v
theories/ReadingFacts.v
theories/P_Reading.v
theories/SpecForeign.v
theories/ForeignFacts.v
theories/P_Foreign.v
theories/SpecTimeout.v
theories/TimeoutFacts.v
theories/SpecWatch.v
theories/JournalService.v
theories/WatchFacts.v
theories/P_Watch.v
theories/P_Timeout.v
theories/RetryFacts.v
theories/P_Retry.v
theories/LateFacts.v
theories/P_Late.v
theories/SpecWhy.v
theories/WhyFacts.v
theories/P_Why.v
theories/SpecFate.v
theories/FateFacts.v
theories/P_Fate.v
theories/SpecWeak.v
theories/WeakFacts.v
theories/P_Weak.v
theories/SpecOpening.v
theories/OpeningFacts.v
theories/P_Opening.v
theories/SpecOem.v
theories/OemFacts.v
theories/P_Oem.v
theories/SpecClear.v
theories/ClearFacts.v
theories/P_Clear.v
theories/SpecHandle.v
theories/HandleFacts.v
theories/P_Handle.v
theories/SpecKept.v
theories/KeptService.v
theories/KeptFacts.v
theories/P_Kept.v
theories/SpecLost.v
theories/LostFacts.v
theories/P_Lost.v
theories/SpecCutoff.v
theories/CutoffFacts.v
theories/ResumeFacts.v
theories/P_Cutoff.v
theories/SpecHalf.v
theories/HalfFacts.v
theories/P_Half.v
theories/SpecHijack.v
theories/HijackFacts.v
theories/P_Hijack.v
theories/SpecDoor.v
theories/DoorFacts.v
theories/P_Door.v
theories/SpecRepeat.v
theories/RepeatFacts.v
theories/P_Repeat.v
theories/SpecErrand.v
theories/ErrandFacts.v
theories/P_Errand.v
theories/SpecOutage.v
theories/OutageFacts.v
theories/OutageFileFacts.v
theories/P_Outage.v
theories/SpecPipe.v
theories/PipeFacts.v
theories/P_Pipe.v
theories/SpecCrowd.v
theories/CrowdFacts.v
theories/P_Crowd.v
theories/SpecSpace.v
theories/SpaceFacts.v
theories/TurnFacts.v
theories/P_Space.v
theories/P_SpaceFetch.v
theories/P_Turn.v
theories/SpecAtomic.v
theories/AtomicFacts.v
theories/P_Atomic.v
theories/SpecTree.v
theories/TreeFacts.v
theories/P_Tree.v
theories/SpecRemoval.v
theories/RemovalFacts.v
theories/P_Removal.v
theories/SpecRemovers.v
theories/RemoversFacts.v
theories/P_Removers.v
theories/SpecBusy.v
theories/BusyFacts.v
theories/P_Busy.v
theories/StormFacts.v
theories/P_Storm.v
theories/SpecMove.v
theories/MoveFacts.v
theories/P_Move.v
theories/SpecMail.v
theories/MailFacts.v
theories/P_Mail.v
theories/SpecPost.v
theories/PostFacts.v
theories/P_Post.v
theories/SpecVisit.v
theories/VisitFacts.v
theories/P_Visit.v
theories/SpecGrow.v
theories/GrowFacts.v
theories/P_Grow.v
theories/SpecGuard.v
theories/GuardFacts.v
theories/P_Guard.v
