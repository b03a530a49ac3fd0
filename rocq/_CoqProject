-Q theories Verif
theories/GoBase.v
theories/UBufModel.v
theories/UBufSpec.v
theories/UBufProofs.v
theories/UBufHeapProofs.v
theories/UBufFacts.v
theories/UBufHeapFacts.v
theories/UBufMixed.v
theories/Props_UBuf.v
theories/UBufTests.v
theories/FrameModel.v
theories/FrameSpec.v
theories/FrameProofs.v
theories/Props_Frame.v
theories/StackModel.v
theories/StackSpec.v
theories/StackProofs.v
theories/StackPath.v
theories/StackFacts.v
theories/StackEffects.v
theories/StackSpecial.v
theories/StackCount.v
theories/StackEnd.v
theories/Props_Stack.v
theories/MgmtModel.v
theories/MgmtSpec.v
theories/MgmtProofs.v
theories/MgmtFacts.v
theories/Props_Mgmt.v
theories/EndModel.v
theories/EndSpec.v
theories/EndProofs.v
theories/Props_End.v
theories/DeckModel.v
theories/DeckSpec.v
theories/DeckProofs.v
theories/DeckRest.v
theories/Props_Deck.v
theories/SockModel.v
theories/SockSpec.v
theories/SockProofs.v
theories/SockRest.v
theories/Props_Sock.v
theories/RefModel.v
theories/RefSpec.v
theories/RefProofs.v
theories/RefRest.v
theories/Props_Ref.v
theories/Props_Release.v
theories/ConnModel.v
theories/ConnSpec.v
theories/ConnProofs.v
theories/Props_Conn.v
theories/BeatModel.v
theories/BeatSpec.v
theories/BeatProofs.v
theories/Props_Beat.v
theories/RaceModel.v
theories/RaceSpec.v
theories/RaceProofs.v
theories/Props_Race.v
theories/CowModel.v
theories/CowSpec.v
theories/CowProofs.v
theories/Props_Cow.v
theories/AddrModel.v
theories/AddrSpec.v
theories/AddrProofs.v
theories/Props_Addr.v
theories/AgainModel.v
theories/AgainSpec.v
theories/AgainProofs.v
theories/Props_Again.v
theories/WireModel.v
theories/WireSpec.v
theories/WireProofs.v
theories/Props_Wire.v
theories/MixModel.v
theories/MixSpec.v
theories/MixProofs.v
theories/MixAlone.v
theories/MixEnds.v
theories/Props_Mix.v
theories/NetModel.v
theories/NetSpec.v
theories/CountFacts.v
theories/NetProofs.v
theories/NetRest.v
theories/Props_Net.v
theories/PathModel.v
theories/PathSpec.v
theories/PathProofs.v
theories/Props_Path.v
theories/RpcModel.v
theories/RpcSpec.v
theories/RpcProofs.v
theories/Props_Rpc.v
theories/SafeSpec.v
theories/SafeProofs.v
theories/Props_Safe.v
theories/PulseModel.v
theories/PulseSpec.v
theories/PulseProofs.v
theories/Props_Pulse.v
theories/StatSpec.v
theories/StatProofs.v
theories/Props_Stat.v
theories/FlowModel.v
theories/FlowSpec.v
theories/FlowProofs.v
theories/FlowPeers.v
theories/FlowFacts.v
theories/Props_Flow.v
theories/AdmModel.v
theories/AdmSpec.v
theories/AdmProofs.v
theories/AdmSeq.v
theories/AdmTold.v
theories/AdmRuns.v
theories/AdmEnds.v
theories/Props_Adm.v
theories/LifeModel.v
theories/LifeSpec.v
theories/LifeProofs.v
theories/LifeRuns.v
theories/Props_Life.v
theories/ObjModel.v
theories/ObjSpec.v
theories/ObjProofs.v
theories/ObjRest.v
theories/Props_Obj.v
theories/TallyModel.v
theories/TallySpec.v
theories/TallyProofs.v
theories/Props_Tally.v
theories/AppModel.v
theories/AppSpec.v
theories/AppProofs.v
theories/Props_App.v
theories/DuoModel.v
theories/DuoSpec.v
theories/DuoPath.v
theories/DuoItems.v
theories/DuoProofs.v
theories/Props_Duo.v
theories/HonSpec.v
theories/HonProofs.v
theories/Props_Hon.v
theories/IncModel.v
theories/IncSpec.v
theories/IncProofs.v
theories/Props_Inc.v
theories/HushSpec.v
theories/HushProofs.v
theories/DuoRest.v
theories/BackRest.v
theories/Props_Hush.v
theories/SiftSpec.v
theories/SiftProofs.v
theories/Props_Sift.v
theories/FeatModel.v
theories/FeatSpec.v
theories/FeatProofs.v
theories/Props_Feat.v
theories/BackSpec.v
theories/BackSift.v
theories/BackProofs.v
theories/Props_Back.v
theories/GlueSpec.v
theories/GlueProofs.v
theories/Props_Glue.v
theories/LoopModel.v
theories/LoopSpec.v
theories/LoopProofs.v
theories/LoopRest.v
theories/Props_Loop.v
theories/SpeedModel.v
theories/SpeedSpec.v
theories/SpeedProofs.v
theories/SpeedRest.v
theories/Props_Speed.v
theories/SwapModel.v
theories/SwapSpec.v
theories/SwapProofs.v
theories/SwapRest.v
theories/SwapCross.v
theories/Props_Swap.v
theories/GrainModel.v
theories/GrainSpec.v
theories/GrainProofs.v
theories/GrainAlone.v
theories/GrainEnds.v
theories/GrainExact.v
theories/Props_Grain.v
theories/TwiceModel.v
theories/TwiceSpec.v
theories/TwiceProofs.v
theories/TwiceShare.v
theories/Props_Twice.v
theories/PollModel.v
theories/PollSpec.v
theories/PollProofs.v
theories/Props_Poll.v
theories/ClimbModel.v
theories/ClimbSpec.v
theories/ClimbProofs.v
theories/ClimbRest.v
theories/Props_Climb.v
