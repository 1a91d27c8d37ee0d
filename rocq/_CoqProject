-Q theories Verif

theories/Base.v
theories/BaseFacts.v
theories/Utils.v
theories/Types.v
theories/Node.v
theories/Shell.v
theories/FuncTests.v
theories/UnitTests.v
theories/Spec.v
theories/PathFacts.v
theories/CollapseFacts.v
theories/DecodeFacts.v
theories/PathProofs.v
theories/PathJoin.v
theories/PropPaths.v
theories/Editor.v
theories/Sched.v
theories/History.v
theories/LogFacts.v
theories/ServiceFacts.v
theories/SchedFacts.v
theories/Macro.v
theories/EditFacts.v
theories/PromptFacts.v
theories/Demo.v
theories/SchedProofs.v
theories/PropSched.v
theories/EditProofs.v
theories/KeyCodes.v
theories/PropEdit.v
theories/Words.v
theories/ParseFacts.v
theories/PhaseFacts.v
theories/IdleFacts.v
theories/ExecFacts.v
theories/Line.v
theories/LineFacts.v
theories/LineProofs.v
theories/PropLine.v
theories/Tree.v
theories/TreeFacts.v
theories/TreeOps.v
theories/TreeFind.v
theories/TreeProofs.v
theories/MountProofs.v
theories/PropTree.v
theories/Cmds.v
theories/CmdFacts.v
theories/PrintfFacts.v
theories/HookFacts.v
theories/CmdProofs.v
theories/DemoCmd.v
theories/NamesProofs.v
theories/HookTree.v
theories/PropCmd.v
theories/PrintfProofs.v
theories/HookProofs.v
theories/ReconfProofs.v
theories/GetProofs.v
theories/PropPrintf.v
theories/Complete.v
theories/CompleteFacts.v
theories/CompleteProofs.v
theories/PropHook.v
theories/PropComplete.v
theories/Session.v
theories/Interrupt.v
theories/SessionProofs.v
theories/IdleProofs.v
theories/StepFacts.v
theories/InterruptProofs.v
theories/Busy.v
theories/BusyFacts.v
theories/BusyTrack.v
theories/BusyTab.v
theories/BusyWork.v
theories/BusyProofs.v
theories/BusySay.v
theories/PropSession.v
theories/PropNames.v
theories/PropReconf.v
theories/PropIdle.v
theories/PropInterrupt.v
theories/PropBusy.v
theories/PropGet.v
theories/Examples.v
theories/ExampleProofs.v
theories/PropExamples.v
theories/Multi.v
theories/MultiFacts.v
theories/MultiProofs.v
theories/PropMulti.v
theories/Builtin.v
theories/BuiltinProofs.v
theories/PropBuiltin.v
theories/Live.v
theories/LiveProofs.v
theories/PropLive.v
theories/BuildinFacts.v
theories/Lives.v
theories/LivesProofs.v
theories/PropLives.v
theories/Process.v
theories/ProcessProofs.v
theories/PropProcess.v
theories/OneStep.v
theories/OneStepProofs.v
theories/PropOneStep.v
theories/Host.v
theories/HostFacts.v
theories/OffPrompt.v
theories/HostProofs.v
theories/PropHost.v
theories/Room.v
theories/RoomProofs.v
theories/DemoRoom.v
theories/PropRoom.v
theories/Memory.v
theories/MemoryProofs.v
theories/PropMemory.v
theories/Texts.v
theories/TextProofs.v
theories/PropTexts.v
theories/Learn.v
theories/LearnProofs.v
theories/PropLearn.v
theories/ProcSession.v
theories/ProcSessionProofs.v
theories/PropProcSession.v
theories/TimeMoreProofs.v
theories/PropTimeMore.v
theories/Calls.v
theories/CallsProofs.v
theories/PropCalls.v
theories/Time.v
theories/TimeProofs.v
theories/TabTime.v
theories/TabTimeProofs.v
theories/PropTime.v
theories/Dirty.v
theories/DirtyProofs.v
theories/PropDirty.v
theories/Sizes.v
theories/SizesProofs.v
theories/PropSizes.v
theories/Forget.v
theories/ForgetProofs.v
theories/PropForget.v
theories/Screen.v
theories/ScreenProofs.v
theories/PropScreen.v
theories/Reach.v
theories/ReachProofs.v
theories/PropReach.v
theories/OfferProofs.v
theories/PropOffer.v
theories/Order.v
theories/OrderProofs.v
theories/PropOrder.v
theories/Listing.v
theories/ListingProofs.v
theories/PropListing.v
theories/Spacing.v
theories/SpacingProofs.v
theories/PropSpacing.v
theories/Undo.v
theories/UndoProofs.v
theories/PropUndo.v
theories/Colours.v
theories/ColoursProofs.v
theories/PropColours.v
theories/NoTab.v
theories/NoTabProofs.v
theories/PropNoTab.v
theories/LineEnd.v
theories/LineEndProofs.v
theories/PropLineEnd.v
theories/Looks.v
theories/LooksProofs.v
theories/PropLooks.v
theories/Amend.v
theories/AmendProofs.v
theories/PropAmend.v
theories/Alias.v
theories/AliasProofs.v
theories/PropAlias.v
theories/Watch.v
theories/WatchProofs.v
theories/PropWatch.v
theories/Local.v
theories/LocalProofs.v
theories/PropLocal.v
theories/Again.v
theories/AgainProofs.v
theories/PropAgain.v
theories/Shuffle.v
theories/ShuffleProofs.v
theories/PropShuffle.v
theories/CodesProofs.v
theories/PropCodes.v
