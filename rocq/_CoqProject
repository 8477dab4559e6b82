-Q theories Verif
theories/Go/Base.v
theories/Go/Heap.v
theories/Model/Common.v
theories/Model/Sys.v
theories/Model/NfQueue.v
theories/Model/NfqConc.v
theories/Model/NetIP.v
theories/Model/Checksum.v
theories/Model/Packet.v
theories/Model/PacketView.v
theories/Model/PacketConc.v
theories/Model/SyscallWrappers.v
theories/Model/NfLog.v
theories/Model/Conntrack.v
theories/Model/AddrText.v
theories/Spec/Netlink.v
theories/Spec/CommonSpec.v
theories/Spec/AttrTable.v
theories/Proof/BaseFacts.v
theories/Proof/CommonFacts.v
theories/Proof/AttrLoop.v
theories/Spec/Inet.v
theories/Proof/InetSum.v
theories/Proof/CommonProps.v
theories/Proof/SysFacts.v
theories/Spec/Requests.v
theories/Proof/Requests.v
theories/Proof/MessageFacts.v
theories/Spec/NfqSpec.v
theories/Spec/Lifecycle.v
theories/Proof/NfqConfig.v
theories/Proof/NfqStart.v
theories/Proof/SockFacts.v
theories/Spec/NflogSpec.v
theories/Proof/NflogConfig.v
theories/Spec/CtSpec.v
theories/Proof/CtFacts.v
theories/Proof/AddrFacts.v
theories/Spec/VerdictSpec.v
theories/Proof/HeapFacts.v
theories/Proof/Verdict.v
theories/Proof/PktMem.v
theories/Spec/Signature.v
theories/Spec/PacketSpec.v
theories/Proof/PktParse.v
theories/Proof/PktOps.v
theories/Proof/PktTcp.v
theories/Proof/PktCsum.v
theories/Proof/PktNew.v
theories/Proof/PktDetach.v
theories/Proof/PktMisc.v
theories/Proof/PktUdp.v
theories/Proof/PktReverse.v
theories/Proof/PktAttachUdp.v
theories/Proof/PktControl.v
theories/Proof/FlowHash.v
theories/Proof/IPText.v
theories/Proof/PktEmit.v
theories/Spec/ViewSpec.v
theories/Spec/PacketConcSpec.v
theories/Spec/History.v
theories/Proof/PktHistory.v
theories/Proof/HashHistory.v
theories/Proof/PktView.v
theories/Proof/PktConc.v
theories/Proof/PktMirror.v
theories/Spec/LogSpec.v
theories/Proof/LogFacts.v
theories/Proof/LogLoop.v
theories/Spec/PktSamples.v
theories/Spec/ConcSpec.v
theories/Spec/QueuesSpec.v
theories/Proof/ConcFacts.v
theories/Proof/ConcProps.v
theories/Proof/ConcQueues.v
theories/Spec/LoopSpec.v
theories/Proof/RecvFacts.v
theories/Proof/LoopFacts.v
theories/Proof/LoopProps.v
theories/Proof/Release.v
theories/Proof/BufferLife.v
theories/Proof/Grows.v
theories/Proof/Lifecycle.v
theories/Spec/Samples.v
theories/Properties/P_Common.v
theories/Properties/P_Config.v
theories/Properties/P_Conntrack.v
theories/Properties/P_Verdict.v
theories/Properties/P_Loop.v
theories/Properties/P_Conc.v
theories/Properties/P_Packet.v
theories/Properties/P_PktOps.v
theories/Properties/P_PktTcp.v
theories/Properties/P_PktUdp.v
theories/Properties/P_PktHist.v
theories/Properties/P_PktView.v
theories/Properties/P_PktConc.v
theories/Properties/P_Life.v
theories/Properties/P_Wrappers.v
theories/Properties/P_NfLog.v
theories/Model/Accessors.v
theories/Model/CtTable.v
theories/Model/PacketText.v
theories/Spec/TextSpec.v
theories/Proof/TextFacts.v
theories/Properties/P_Text.v
theories/Properties/P_LogLife.v
theories/Model/NfqLoopConc.v
theories/Spec/LoopConcSpec.v
theories/Proof/LoopConc.v
theories/Properties/P_LoopConc.v
theories/Model/NfqLock.v
theories/Spec/LockSpec.v
theories/Proof/LockNI.v
theories/Proof/LockProps.v
theories/Properties/P_Lock.v
theories/Spec/Outcome.v
theories/Proof/AttrOutcome.v
theories/Proof/RecvOutcome.v
theories/Spec/MarkSpec.v
theories/Proof/MarkWhere.v
theories/Properties/P_Exact.v
theories/Spec/UdpHistory.v
theories/Proof/UdpHistory.v
theories/Properties/P_UdpHist.v
theories/Spec/OddSpec.v
theories/Proof/PktOdd.v
theories/Properties/P_Odd.v
theories/Spec/LogOutcome.v
theories/Proof/LogOutcome.v
theories/Properties/P_LogExact.v
theories/Spec/Fifo.v
theories/Proof/Fifo.v
theories/Properties/P_Fifo.v
theories/Properties/P_PktAcc.v
theories/Spec/LogFifo.v
theories/Proof/LogFifo.v
theories/Properties/P_LogFifo.v
theories/Model/NfqStop.v
theories/Spec/StopConc.v
theories/Proof/StopConc.v
theories/Properties/P_StopConc.v
theories/Properties/P_PktPieces.v
theories/Model/Examples.v
theories/Spec/ExampleSpec.v
theories/Properties/P_Examples.v
theories/Spec/Overlap.v
theories/Proof/Overlap.v
theories/Properties/P_Overlap.v
theories/Spec/BufferSpec.v
theories/Proof/PktSource.v
theories/Properties/P_PktSource.v
theories/Proof/VerdictBig.v
theories/Spec/ClientSpec.v
theories/Proof/Client.v
theories/Properties/P_Client.v
theories/Spec/AddrSpec.v
theories/Proof/AddrExact.v
theories/Properties/P_Addr.v
theories/Properties/P_ErrCb.v
theories/Spec/HandleSpec.v
theories/Proof/Channel.v
theories/Properties/P_Channel.v
theories/Spec/Descriptors.v
theories/Proof/Descriptors.v
theories/Properties/P_Descriptors.v
theories/Spec/FrameSpec.v
theories/Proof/Frame.v
theories/Properties/P_Frame.v
theories/Proof/LogFrame.v
theories/Spec/CtHandle.v
theories/Proof/CtHistory.v
theories/Properties/P_Histories.v
theories/Spec/StaleSpec.v
theories/Proof/StaleWhere.v
theories/Proof/StartSlots.v
theories/Properties/P_Stale.v
theories/Spec/ProgramSpec.v
theories/Proof/Program.v
theories/Properties/P_Program.v
theories/Spec/PktFrameSpec.v
theories/Proof/PktFrame.v
theories/Properties/P_PktFrame.v
theories/Properties/P_Cases.v
theories/Spec/UdpClientSpec.v
theories/Proof/UdpClient.v
theories/Properties/P_UdpClient.v
theories/Spec/UdpServeSpec.v
theories/Model/ByteOrder.v
theories/Spec/ByteOrderSpec.v
theories/Properties/P_ByteOrder.v
theories/Spec/StopCountSpec.v
theories/Proof/StopCount.v
theories/Properties/P_StopCount.v
