-Q theories Verif
theories/Base.v
theories/BitSpec.v
theories/DeriveUtil.v
theories/DeriveOps.v
theories/BaseFacts.v
theories/BitFacts.v
theories/DeriveUtilProofs.v
theories/DeriveOpsProofs.v
theories/DeriveGen.v
theories/DeriveLEProofs.v
theories/SpecPacket.v
theories/DeriveGenProofs.v
theories/DeriveInvProofs.v
theories/DeriveAccProofs.v
theories/DeriveVarProofs.v
theories/DeriveApiProofs.v
theories/DerivePropProofs.v
theories/DerivePropProofs2.v
theories/Protocols.v
theories/ProtoFacts.v
theories/ProtoPayloadProofs.v
theories/Samples.v
theories/DerivePropProofs3.v
theories/SpecStruct.v
theories/DeriveStructProofs.v
theories/Checksum.v
theories/SpecChecksum.v
theories/SpecChecksum2.v
theories/ChecksumProofs.v
theories/ChecksumProofs2.v
theories/ChecksumProofs3.v
theories/MacAddr.v
theories/SpecMac.v
theories/MacAddrProofs.v
theories/ProtoMethods.v
theories/SpecProto.v
theories/ProtoLayoutProofs.v
theories/ProtoSplitProofs.v
theories/ProtoGreProofs.v
theories/ProtoOptionProofs.v
theories/ProtoStructProofs.v
theories/ProtoFragProofs.v
theories/ProtoTcpProofs.v
theories/ProtoMoreProofs.v
theories/Quic.v
theories/SpecQuic.v
theories/QuicIntProofs.v
theories/QuicWalkProofs.v
theories/QuicFrameProofs.v
theories/QuicSeqProofs.v
theories/QuicRfcProofs.v
theories/QuicLongProofs.v
theories/QuicPacketProofs.v
theories/QuicRecoverProofs.v
theories/QuicPopulateProofs.v
theories/CorePacket.v
theories/CoreTypes.v
theories/SpecCore.v
theories/CorePacketProofs.v
theories/DeriveParse.v
theories/SpecParse.v
theories/DeriveParseProofs.v
theories/PropsDerive.v
theories/PropsChecksum.v
theories/PropsChecksum2.v
theories/PropsMac.v
theories/PropsCore.v
theories/PropsMacro.v
theories/PropsProto.v
theories/Names.v
theories/SpecNames.v
theories/NamesProofs.v
theories/PropsQuic.v
theories/PropsNames.v
theories/EmitText.v
theories/SpecRust.v
theories/EmitTextProofs.v
theories/EmitSpecProofs.v
theories/PropsText.v
theories/SpecStack.v
theories/StackSamples.v
theories/StackProofs.v
theories/StackEditProofs.v
theories/PropsStack.v
theories/SpecArea.v
theories/ProtoAreaProofs.v
theories/SpecPopulate.v
theories/DerivePopulateProofs.v
theories/ProtoPopulateProofs.v
theories/PropsArea.v
theories/PropsPopulate.v
theories/SpecQuicEnd.v
theories/QuicEndProofs.v
theories/PropsQuicEnd.v
theories/FmtText.v
theories/SpecFmt.v
theories/FmtProofs.v
theories/FmtValueProofs.v
theories/FmtPacketProofs.v
theories/FmtSpecProofs.v
theories/SpecQuicText.v
theories/QuicFmtProofs.v
theories/FmtSamples.v
theories/PropsFmt.v
theories/RustLex.v
theories/RustSyntax.v
theories/RustSem.v
theories/CrateText.v
theories/SpecSource.v
theories/SourceTac.v
theories/SourceProofs.v
theories/SourceGood.v
theories/PropsSource.v
theories/RustItem.v
theories/SpecItem.v
theories/ItemProofs.v
theories/ItemLayout.v
theories/PropsItem.v
theories/RustMethod.v
theories/RustExec.v
theories/GenText.v
theories/EmitGen.v
theories/SpecEmit.v
theories/EmitEq.v
theories/EmitWant.v
theories/EmitTransfer.v
theories/EmitLayout.v
theories/EmitOps.v
theories/EmitRun.v
theories/EmitStable.v
theories/EmitReads.v
theories/EmitSets.v
theories/EmitWrites.v
theories/EmitPkts.v
theories/EmitCheck.v
theories/EmitCheckSet.v
theories/EmitProofs.v
theories/EmitProofsSet.v
theories/SpecEmitIter.v
theories/EmitIter.v
theories/EmitConv.v
theories/EmitProofsIter.v
theories/PropsEmit.v
theories/PropsEmitSet.v
theories/PropsEmitIter.v
theories/RustAst.v
theories/RustEval.v
theories/CrateText2.v
theories/SpecSource2.v
theories/EvalTac.v
theories/DeriveSrc.v
theories/DeriveSrc2.v
theories/DeriveSrc3.v
theories/DeriveSrc4.v
theories/PropsSource2.v
theories/SpecSource3.v
theories/CrateSrcTac.v
theories/CrateSrc1.v
theories/CrateSrc2.v
theories/CrateSrc3.v
theories/CrateSrc4.v
theories/CrateSrc5.v
theories/CrateSrc6.v
theories/CrateSrc7.v
theories/CrateSrc8.v
theories/PropsSource3.v
theories/PropsSource4.v
theories/GenCode.v
theories/MacroEval.v
theories/SpecMacro.v
theories/MacroParts.v
theories/MacroProofs.v
theories/MacroCheck.v
theories/MacroRun.v
theories/PropsMacro2.v
theories/MacroCode.v
theories/MacroFill.v
theories/MacroSym.v
theories/MacroLoop.v
theories/MacroMisc.v
theories/SpecAny.v
theories/MacroRound.v
theories/MacroImpl.v
theories/MacroRest.v
theories/MacroAny.v
theories/MacroTotal.v
theories/MacroFine.v
theories/MacroReject.v
theories/PropsMacro3.v
theories/SpecSig.v
theories/MacroSig.v
theories/MacroNames.v
theories/PropsMacro4.v
theories/SpecBody.v
theories/MacroBody.v
theories/PropsMacro5.v
theories/SpecPay.v
theories/MacroPay.v
theories/PropsMacro6.v
theories/SpecDbg.v
theories/MacroDbg.v
theories/PropsMacro7.v
