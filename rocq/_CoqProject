-Q theories Verif
theories/Base.v
theories/BaseProofs.v
theories/Packet.v
theories/SpecWire.v
theories/PacketProofs.v
theories/PacketProofs2.v
theories/PacketProofs3.v
theories/PropPacket.v
theories/Util.v
theories/Float.v
theories/State.v
theories/Socket.v
theories/Hoare.v
theories/Steps.v
theories/StepProofs.v
theories/Ops.v
theories/Frame.v
theories/Inv.v
theories/UtilProofs.v
theories/Samples.v
theories/PropUtil.v
theories/SackProofs.v
theories/BufferProofs.v
theories/PropBuffer.v
theories/CongProofs.v
theories/PropCong.v
theories/FloatProofs.v
theories/EwmaProofs.v
theories/Accuracy.v
theories/CwndProofs.v
theories/GrowthProofs.v
theories/PropWindow.v
theories/PropDelay.v
theories/RecvProofs.v
theories/PropRecv.v
theories/SendProofs.v
theories/PropSend.v
theories/ConnProofs.v
theories/PropConn.v
theories/TermProofs.v
theories/PrefixProofs.v
theories/PropTerm.v
theories/NoPanicProofs.v
theories/PropPanic.v
theories/SpecStream.v
theories/StreamRxProofs.v
theories/StreamOrderProofs.v
theories/PropStream.v
theories/SenderProofs.v
theories/EndProofs.v
theories/PropEnd.v
theories/Stream.v
theories/AdapterProofs.v
theories/PropAdapter.v
theories/OpenProofs.v
theories/SelectiveProofs.v
theories/Listener.v
theories/ListenerProofs.v
theories/PropMore.v
theories/MonoProofs.v
theories/ReplyProofs.v
theories/PropReply.v
theories/LostProofs.v
theories/ProvProofs.v
theories/LossProofs.v
theories/PropLost.v
theories/SpecTransfer.v
theories/TransferProofs.v
theories/PropTransfer.v
theories/CloseProofs.v
theories/PropClose.v
theories/BulkProofs.v
theories/PropBulk.v
theories/SpecLossy.v
theories/LossyProofs.v
theories/PropLossy.v
theories/SpecBurst.v
theories/BurstProofs.v
theories/PropBurst.v
theories/SpecParting.v
theories/PartingProofs.v
theories/PropParting.v
theories/SpecTraffic.v
theories/TrafficProofs.v
theories/PropTraffic.v
theories/SpecCancel.v
theories/CancelProofs.v
theories/PropCancel.v
theories/DuplexProofs.v
theories/PropDuplex.v
theories/BepProofs.v
theories/PropBep.v
theories/SpecCross.v
theories/CrossProofs.v
theories/PropCross.v
theories/SpecPipe.v
theories/PipeProofs.v
theories/PropPipe.v
theories/AckedProofs.v
theories/PropAcked.v
theories/FixedProofs.v
theories/SpecCat.v
theories/CatProofs.v
theories/PropCat.v
theories/SpecEcho.v
theories/EchoProofs.v
theories/PropEcho.v
theories/SpecTable.v
theories/TableProofs.v
theories/PropTable.v
theories/SpecSuite.v
theories/SuiteProofs.v
theories/PropSuite.v
theories/HoleProofs.v
theories/PropHole.v
theories/PiggyProofs.v
theories/PropPiggy.v
theories/ForeignProofs.v
theories/StallProofs.v
theories/OldCopyProofs.v
theories/PropStall.v
theories/GateProofs.v
theories/PropGate.v
theories/NearestProofs.v
theories/DelayProofs.v
theories/PropSteady.v
theories/PropBackoff.v
theories/TimerProofs.v
theories/PropTimer.v
theories/PropIdle.v
theories/HalfProofs.v
theories/PropHalf.v
theories/PropSource.v
theories/PropEarly.v
theories/HoardProofs.v
theories/PropHoard.v
theories/NestProofs.v
theories/PropNest.v
theories/PropWrite.v
theories/PropNoise.v
