-Q theories Verif
theories/PyBase.v
theories/BitstringModel.v
theories/SpecBits.v
theories/SpecArm.v
theories/BitFacts.v
theories/BitOps.v
theories/BitText.v
theories/BitMisc.v
theories/BitThms.v
theories/PropBit.v
theories/UtilModel.v
theories/HelpersModel.v
theories/HelpFacts.v
theories/HelpThms.v
theories/PropHelp.v
theories/UtilFacts.v
theories/UtilThms.v
theories/PropUtil.v
theories/CpuModel.v
theories/SpecCpu.v
theories/CpuFacts.v
theories/CpuThms.v
theories/PropCpu.v
theories/InsnModel.v
theories/DecoderModel.v
theories/TableModel.v
theories/SpecDecoder.v
theories/ParseFacts.v
theories/TreeFacts.v
theories/DecThms.v
theories/PropDec.v
theories/SpecIsa.v
theories/IsaFacts.v
theories/IsaOps.v
theories/IsaRows.v
theories/IsaThms.v
theories/PropIsa.v
theories/ExecModel.v
theories/SpecExec.v
theories/ExecFacts.v
theories/ExecDataThms.v
theories/ExecArithThms.v
theories/ExecMiscThms.v
theories/ExecMemThms.v
theories/ExecMultiThms.v
theories/PropExecData.v
theories/PropExecArith.v
theories/PropExecMisc.v
theories/PropExecMem.v
theories/PropExecMulti.v
theories/SpecWhole.v
theories/IsaBound.v
theories/ExecShape.v
theories/ExecRows.v
theories/ExecWholeThms.v
theories/PropExecWhole.v
theories/ExecRefThms.v
theories/PropExecRef.v
theories/DisasmModel.v
theories/SpecDisasm.v
theories/DisasmThms.v
theories/PropDisasm.v
theories/FormatModel.v
theories/SpecFormat.v
theories/FormatFacts.v
theories/FormatThms.v
theories/PropFormat.v
theories/SimModel.v
theories/SpecSim.v
theories/SimFacts.v
theories/SimThms.v
theories/PropSim.v
theories/SpecConsole.v
theories/ConsoleThms.v
theories/PropConsole.v
theories/DelegateModel.v
theories/RegistryModel.v
theories/SpecApi.v
theories/ApiThms.v
theories/PropApi.v
theories/SpecPort.v
theories/PortThms.v
theories/PropPort.v
theories/HeapModel.v
theories/SpecHeap.v
theories/HeapThms.v
theories/PropHeap.v
theories/DumpModel.v
theories/SpecDump.v
theories/DumpThms.v
theories/PropDump.v
theories/ProgramModel.v
theories/SpecProg.v
theories/ProgThms.v
theories/PropProg.v
theories/SpecRun.v
theories/RunThms.v
theories/PropRun.v
theories/SpecMiss.v
theories/MissThms.v
theories/PropMiss.v
theories/CornerThms.v
theories/PropCorner.v
theories/SpecMore.v
theories/MoreThms.v
theories/PropMore.v
theories/SpecOperand.v
theories/OperandThms.v
theories/PropOperand.v
theories/BareThms.v
theories/PropBare.v
theories/SpecForward.v
theories/ForwardThms.v
theories/PropForward.v
theories/SpecFrame.v
theories/FrameFacts.v
theories/FrameThms.v
theories/PropFrame.v
theories/DependFacts.v
theories/DependThms.v
theories/PropDepend.v
theories/SpecAsm.v
theories/AsmFacts.v
theories/AsmThms.v
theories/PropAsm.v
theories/HandThms.v
theories/PropHand.v
theories/SuiteTests.v
theories/SpecOrder.v
theories/OrderThms.v
theories/PropOrder.v
theories/ArgsModel.v
theories/SpecArgs.v
theories/ArgsThms.v
theories/PropArgs.v
theories/DelegateExecModel.v
theories/SpecAny.v
theories/AnyThms.v
theories/PropAny.v
theories/AloneModel.v
theories/SpecAlone.v
theories/AloneThms.v
theories/PropAlone.v
theories/StderrModel.v
theories/SpecErr.v
theories/StderrThms.v
theories/PropStderr.v
theories/SpecStop.v
theories/StopThms.v
theories/PropStop.v
theories/SpecHandlers.v
theories/HandlerThms.v
theories/PropHandler.v
