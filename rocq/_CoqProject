-Q theories Verif
theories/Word.v
theories/Numeric.v
theories/WasmNum.v
theories/NumericProofs.v
theories/Float.v
theories/WasmFloat.v
theories/FloatProofs.v
theories/NumFacts.v
theories/Properties_Num.v
theories/Value.v
theories/Mem.v
theories/WasmMem.v
theories/MemProofs.v
theories/Store.v
theories/StoreSpec.v
theories/StoreProofs.v
theories/MemFacts.v
theories/Properties_Mem.v
theories/Regs.v
theories/IR.v
theories/Machine.v
theories/Wasm.v
theories/Decoder.v
theories/Check.v
theories/RegsProofs.v
theories/Loc.v
theories/DecodeProofs.v
theories/BasicSim.v
theories/Sim.v
theories/Dyn.v
theories/WasmTyping.v
theories/Restrict.v
theories/WasmPrims.v
theories/PrimFacts.v
theories/Agree.v
theories/Soundness.v
theories/Correct.v
theories/ExecFacts.v
theories/Examples.v
theories/Properties_Exec.v
theories/FrameFacts.v
theories/Properties_Frames.v
theories/Layout.v
theories/Properties_Layout.v
theories/Runtime.v
theories/SimState.v
theories/RuntimeProofs.v
theories/MigrationProofs.v
theories/Properties_Runtime.v
theories/Args.v
theories/ArgsSpec.v
theories/Properties_Args.v
theories/Wasi.v
theories/WasiSpec.v
theories/WasiProofs.v
theories/Properties_Host.v
theories/Module.v
theories/ModuleSpec.v
theories/ModuleProofs.v
theories/Properties_Module.v
theories/StaticSpec.v
theories/StaticProofs.v
theories/Properties_Static.v
theories/TotalSpec.v
theories/Total.v
theories/Properties_Total.v
theories/Load.v
theories/LoadSpec.v
theories/LoadProofs.v
theories/ParamProofs.v
theories/MainProofs.v
theories/Properties_Main.v
theories/WorldSpec.v
theories/World.v
theories/WorldProofs.v
theories/Properties_World.v
theories/Properties_Errno.v
theories/TraceSpec.v
theories/TraceProofs.v
theories/Properties_Trace.v
theories/EmitProofs.v
theories/EmitTyped.v
theories/RangeProofs.v
theories/Codec.v
theories/CodecProofs.v
theories/FileSpec.v
theories/FileProofs.v
theories/Properties_Files.v
theories/WholeProofs.v
theories/Properties_Whole.v
theories/MoveProofs.v
theories/Properties_Move.v
theories/SizeSpec.v
theories/SizeProofs.v
theories/Properties_Size.v
theories/Properties_Linear.v
theories/Accept.v
theories/Program.v
theories/Properties_Program.v
theories/BoundsSpec.v
theories/Bounds.v
theories/Properties_Bounds.v
theories/Ieee.v
theories/ConfTests.v
theories/ConfModel.v
theories/ConfSpec.v
theories/ConfProgram.v
theories/RoundSpec.v
theories/RoundProofs.v
theories/Properties_Ieee.v
theories/NanSpec.v
theories/PortProofs.v
theories/Properties_Port.v
theories/Properties_Across.v
theories/Properties_Nan.v
theories/Indexes.v
theories/Instrument.v
theories/InstrumentSpec.v
theories/InstrumentProofs.v
theories/Properties_Instrument.v
