-Q theories Verif
theories/Base.v
theories/BaseLemmas.v
theories/ExecModel.v
theories/IsaSpec.v
theories/ExecProofs.v
theories/AluProofs.v
theories/ExecIsaProofs.v
theories/ExecProps.v
theories/RenModel.v
theories/RenSpec.v
theories/RenProofs.v
theories/RenProps.v
theories/RobModel.v
theories/RobSpec.v
theories/RobProofs.v
theories/RobProps.v
theories/IduModel.v
theories/IduSpec.v
theories/IduProofs.v
theories/IduProps.v
theories/Ring.v
theories/PreIduModel.v
theories/PreIduSpec.v
theories/PreIduProofs.v
theories/PreIduProps.v
theories/IqModel.v
theories/IqSpec.v
theories/IqProofs.v
theories/IqProps.v
theories/ExuModel.v
theories/ExuSpec.v
theories/ExuProofs.v
theories/ExuProps.v
theories/WakeModel.v
theories/WakeSpec.v
theories/WakeProofs.v
theories/WakeProps.v
theories/PrfModel.v
theories/PrfProps.v
theories/BrArbModel.v
theories/BrArbProps.v
theories/CsrModel.v
theories/CsrSpec.v
theories/CsrProofs.v
theories/CsrProps.v
theories/DispModel.v
theories/DispSpec.v
theories/DispProofs.v
theories/DispProps.v
theories/MemModel.v
theories/MemSpec.v
theories/MemProofs.v
theories/MemProps.v
theories/LsuModel.v
theories/LsuStq.v
theories/LsuQ.v
theories/LsuRun.v
theories/LsuSpec.v
theories/LsuHist.v
theories/LsuCycle.v
theories/LsuProps.v
theories/LsuSquashProps.v
theories/DiffModel.v
theories/DiffSpec.v
theories/DiffProofs.v
theories/DiffProps.v
theories/OooModel.v
theories/OooSpec.v
theories/OooProofs.v
theories/OooProps.v
theories/FrontModel.v
theories/FrontSpec.v
theories/FrontProofs.v
theories/FrontProps.v
theories/PeriphModel.v
theories/PeriphSpec.v
theories/PeriphProofs.v
theories/PeriphProps.v
theories/DcModel.v
theories/DcSpec.v
theories/DcLemmas.v
theories/DcInv.v
theories/DcStage.v
theories/DcMiss.v
theories/DcFill.v
theories/DcTick.v
theories/DcReach.v
theories/DcLoad.v
theories/DcRound.v
theories/DcTrace.v
theories/DcProps.v
theories/IcModel.v
theories/IcSpec.v
theories/IcProofs.v
theories/IcInv.v
theories/IcIdle.v
theories/IcSwap.v
theories/IcCall.v
theories/IcReach.v
theories/IcProg.v
theories/IcProps.v
theories/RtModel.v
theories/RtSpec.v
theories/RtDc.v
theories/RtProofs.v
theories/RtTrace.v
theories/RtProps.v
theories/FxSpec.v
theories/FxIc.v
theories/FxProofs.v
theories/FxTrace.v
theories/FxProps.v
theories/Sv32Spec.v
theories/PtwModel.v
theories/PtwSpec.v
theories/PtwProofs.v
theories/PtwMain.v
theories/PtwTrace.v
theories/PtwProps.v
theories/TlbModel.v
theories/TlbSpec.v
theories/TlbProofs.v
theories/TlbMain.v
theories/TlbTrace.v
theories/TlbProps.v
theories/TlbBits.v
theories/TlbBitsProofs.v
theories/TlbBitsMain.v
theories/TlbBitsParts.v
theories/TlbBitsProps.v
theories/RefModel.v
theories/RefVmProps.v
theories/RefSpec.v
theories/RefExecProofs.v
theories/RefStepProofs.v
theories/RefExecProps.v
theories/RefCsrProps.v
theories/RefTrapProps.v
theories/RefDevProps.v
theories/PaxModel.v
theories/PaxSpec.v
theories/PaxProofs.v
theories/PaxComp.v
theories/PaxProps.v
theories/BpModel.v
theories/BpSpec.v
theories/BpProofs.v
theories/BpMain.v
theories/BpQueue.v
theories/BpProps.v
theories/TageModel.v
theories/TageSpec.v
theories/TageProofs.v
theories/TageProps.v
theories/TageUseProps.v
theories/TyModel.v
theories/TySpec.v
theories/TyProofs.v
theories/TyProps.v
theories/TyAgeProps.v
theories/BtbModel.v
theories/BtbSpec.v
theories/BtbProofs.v
theories/BtbProps.v
theories/BtbIdxProps.v
theories/BpcModel.v
theories/BpcSpec.v
theories/BpcProofs.v
theories/BpcProps.v
theories/FpuModel.v
theories/FpuSpec.v
theories/FpuProofs.v
theories/FpuProps.v
theories/NetModel.v
theories/NetAdd.v
theories/NetMul.v
theories/NetAbs.v
theories/NetProofs.v
theories/NetFast.v
theories/NetAddChk.v
theories/NetMulChk.v
theories/NetAddProps.v
theories/NetMulProps.v
theories/SupModel.v
theories/SupSpec.v
theories/SupProofs.v
theories/SupProps.v
theories/RlLsu.v
theories/RlModel.v
theories/RlProofs.v
theories/RlProps.v
theories/LdqInv.v
theories/LdqPhase.v
theories/LdqPhase2.v
theories/LdqPhase3.v
theories/LdqMain.v
theories/LdqProps.v
theories/LvStab.v
theories/LvLoads.v
theories/LvStores.v
theories/LvMem.v
theories/LvMain.v
theories/LvProps.v
theories/LcSc.v
theories/LcModel.v
theories/LcProofs.v
theories/LcProps.v
theories/BtModel.v
theories/BtProps.v
theories/ResModel.v
theories/ResProps.v
theories/CpModel.v
theories/CpOrder.v
theories/CpProps.v
theories/IrSpec.v
theories/IrProps.v
theories/AxModel.v
theories/AxSpec.v
theories/AxProofs.v
theories/AxProps.v
theories/PbModel.v
theories/PbProps.v
