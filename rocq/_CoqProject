-Q theories Verif
theories/Base.v
theories/Bits.v
theories/Types.v
theories/Layout.v
theories/Heap.v
theories/Packet.v
theories/Text.v
theories/Build.v
theories/Utils.v
theories/Slow.v
theories/Fast.v
theories/Spec.v
theories/BitsProofs.v
theories/HeapProofs.v
theories/Show.v
theories/ShowSpec.v
theories/Trait.v
theories/Python.v
theories/Ipv6.v
theories/Ipv6Spec.v
theories/Ops.v
theories/Conc.v
theories/ConcSpec.v
theories/ConcProofs.v
theories/TornProofs.v
theories/OpsProofs.v
theories/PacketProofs.v
theories/PropHeader.v
theories/PropPacket.v
theories/TextProofs.v
theories/ChecksumProofs.v
theories/BuildProofs.v
theories/ShowProofs.v
theories/Ipv6Proofs.v
theories/PropText.v
theories/PropShow.v
theories/PropChecksum.v
theories/PropBuild.v
theories/Grammar.v
theories/GrammarProofs.v
theories/SlowProofs.v
theories/FastProofs.v
theories/PropParse.v
theories/EditSpec.v
theories/EditProofs.v
theories/PropEdit.v
theories/UtilsSpec.v
theories/UtilsProofs.v
theories/PropUtils.v
theories/PropTunnel.v
theories/PropTypes.v
theories/PropConc.v
theories/Replay.v
theories/PropTrait.v
theories/PropSnap.v
theories/PropIpv6.v
theories/Client.v
theories/ClientSpec.v
theories/ClientProofs.v
theories/PropClient.v
theories/Threads.v
theories/ThreadsSpec.v
theories/ThreadsSim.v
theories/ThreadsRel.v
theories/ThreadsProofs.v
theories/PropThreads.v
theories/TPrint.v
theories/TPrintSim.v
theories/TPrintRel.v
theories/TPrintErase.v
theories/TPrintSpec.v
theories/TPrintProofs.v
theories/PropTPrint.v
theories/LocalSpec.v
theories/LocalProofs.v
theories/PropLocal.v
theories/Programs.v
theories/PropDocs.v
theories/Print.v
theories/PrintSpec.v
theories/PrintProofs.v
theories/PropPrint.v
theories/L4Spec.v
theories/PropL4.v
theories/PanicSpec.v
theories/PanicProofs.v
theories/PanicCalls.v
theories/PanicBuild.v
theories/PropPanic.v
theories/ModeSpec.v
theories/ModeProofs.v
theories/ModeThreads.v
theories/PropMode.v
theories/CostSpec.v
theories/CostProofs.v
theories/PropCost.v
theories/ShapeSpec.v
theories/ShapeProofs.v
theories/PropShape.v
theories/Pcap.v
theories/PcapSpec.v
theories/PcapProofs.v
theories/PropPcap.v
theories/AbortSpec.v
theories/AbortProofs.v
theories/PropAbort.v
theories/TruncSpec.v
theories/TruncProofs.v
theories/PropTrunc.v
theories/LegibleSpec.v
theories/LegibleProofs.v
theories/PropLegible.v
theories/LinSpec.v
theories/LinProofs.v
theories/PropLin.v
theories/Pipe.v
theories/PipeSpec.v
theories/PipeProofs.v
theories/PropPipe.v
theories/Free.v
theories/FreeSpec.v
theories/FreeProofs.v
theories/PropFree.v
theories/Race.v
theories/RaceSpec.v
theories/RaceProofs.v
theories/PropRace.v
theories/Boxes.v
theories/BoxesSpec.v
theories/BoxesProofs.v
theories/PropBoxes.v
theories/FieldsSpec.v
theories/FieldsProofs.v
theories/PropFields.v
theories/DetectSpec.v
theories/DetectProofs.v
theories/PropDetect.v
theories/RemainsSpec.v
theories/RemainsProofs.v
theories/PropRemains.v
theories/WideSpec.v
theories/WideProofs.v
theories/PropWide.v
theories/EditsSpec.v
theories/EditsProofs.v
theories/PropEdits.v
theories/SessionSpec.v
theories/SessionProofs.v
theories/PropSession.v
theories/SourceSpec.v
theories/SourceProofs.v
theories/PropSource.v
theories/ApartSpec.v
theories/ApartProofs.v
theories/PropApart.v
theories/Usize.v
theories/UsizeSpec.v
theories/UsizeProofs.v
theories/PropUsize.v
theories/DepthSpec.v
theories/DepthProofs.v
theories/PropDepth.v
theories/SteerSpec.v
theories/SteerProofs.v
theories/PropSteer.v
theories/AskSpec.v
theories/AskProofs.v
theories/PropAsk.v
theories/WrapSpec.v
theories/WrapProofs.v
theories/PropWrap.v
theories/IncrSpec.v
theories/IncrProofs.v
theories/PropIncr.v
theories/LawsSpec.v
theories/LawsProofs.v
theories/PropLaws.v
theories/PoisonSpec.v
theories/PoisonProofs.v
theories/PropPoison.v
theories/TPoisonSpec.v
theories/TPoisonProofs.v
theories/PropTPoison.v
theories/TagSpec.v
theories/TagProofs.v
theories/PropTag.v
theories/EncapSpec.v
theories/EncapProofs.v
theories/PropEncap.v
theories/OriginalSpec.v
theories/OriginalProofs.v
theories/PropOriginal.v
