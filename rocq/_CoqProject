-Q theories Verif
theories/Word.v
theories/Fips197.v
theories/Fips197_Tests.v
theories/Isa_x86.v
theories/Isa_arm.v
theories/Isa_riscv.v
theories/Interface.v
theories/Tables.v
theories/Model_Table.v
theories/Model_Columns.v
theories/Model_Bitslice.v
theories/Model_X86.v
theories/Model_Vaes.v
theories/Model_Arm.v
theories/Model_Rv64.v
theories/Model_Rv32.v
theories/Model_Wide.v
theories/Model_Lib.v
theories/Model_Cfg.v
theories/Proof_Word.v
theories/Proof_Fips.v
theories/Spec_Api.v
theories/Proof_Ok.v
theories/Proof_Table.v
theories/Proof_X86.v
theories/Proof_Arm.v
theories/Proof_Rv64.v
theories/Proof_Shift.v
theories/Proof_Lanes.v
theories/Proof_Bitslice.v
theories/Proof_Rv32.v
theories/Proof_Wide.v
theories/Proof_KeySpec.v
theories/Proof_KeyTable.v
theories/Proof_KeyX86.v
theories/Proof_KeyRv64.v
theories/Proof_Columns.v
theories/Proof_Shape.v
theories/Spec_Reach.v
theories/Spec_Cfg.v
theories/Proof_Sem.v
theories/Proof_Lib.v
theories/Proof_Reach.v
theories/Proof_Inst.v
theories/Proof_Cipher.v
theories/Spec_User.v
theories/Proof_Main.v
theories/Samples.v
theories/Props_Cipher.v
theories/Props_Rounds.v
theories/Props_Blocks.v
theories/Props_Batch.v
theories/Props_Total.v
theories/Props_Cfg.v
theories/Props_Refuted.v
theories/Model_Fmt.v
theories/Spec_Fmt.v
theories/Proof_Fmt.v
theories/Props_Fmt.v
theories/Spec_Leak.v
theories/Model_Leak.v
theories/Model_LeakAccel.v
theories/Model_LeakSoft.v
theories/Model_Running.v
theories/Proof_Leak.v
theories/Proof_LeakRun.v
theories/Proof_LeakEngine.v
theories/Proof_LeakAccel.v
theories/Proof_LeakKeys.v
theories/Proof_LeakSoft.v
theories/Proof_LeakCount.v
theories/Model_LeakTable.v
theories/Proof_LeakTable.v
theories/Props_Leak.v
theories/Spec_Actual.v
theories/Proof_KeyGen.v
theories/Proof_Actual.v
theories/Props_Actual.v
theories/Spec_Algebra.v
theories/Proof_Algebra.v
theories/Props_Algebra.v
theories/Props_LeakAccel.v
theories/Spec_LeakBlock.v
theories/Model_LeakBlock.v
theories/Proof_LeakBlock.v
theories/Proof_LeakEqual.v
theories/Proof_LeakOps.v
theories/Props_LeakBlock.v
theories/Spec_Insn.v
theories/Props_Insn.v
theories/Spec_Mem.v
theories/Model_Mem.v
theories/Spec_MemUser.v
theories/Proof_Mem.v
theories/Props_Mem.v
theories/Props_Keys.v
theories/Model_Tests.v
theories/Model_Tests2.v
theories/Model_Suite.v
theories/Repo_Tests.v
theories/Model_Ci.v
theories/Spec_Ci.v
theories/Proof_Suite.v
theories/Props_Ci.v
theories/Spec_Client.v
theories/Model_Client.v
theories/Proof_Client.v
theories/Proof_ClientSafe.v
theories/Props_Client.v
theories/Spec_ClientActual.v
theories/Proof_ClientActual.v
theories/Props_ClientActual.v
theories/Spec_LeakClient.v
theories/Spec_LeakSoft.v
theories/Model_LeakClient.v
theories/Proof_LeakClient.v
theories/Proof_LeakWatch.v
theories/Props_LeakClient.v
theories/Props_LeakSoft.v
theories/Proof_LeakReveal.v
theories/Proof_LeakRevealKey.v
theories/Proof_LeakRevealMix.v
theories/Props_LeakReveal.v
theories/Spec_Assemble.v
theories/Props_Assemble.v
theories/Spec_Modes.v
theories/Spec_Cost.v
theories/Spec_Aegis.v
theories/Props_Modes.v
theories/Proof_Cost.v
theories/Props_Cost.v
theories/Props_Aegis.v
theories/Spec_Threads.v
theories/Proof_Threads.v
theories/Proof_CrateThreads.v
theories/Props_Threads.v
theories/Strength.v
theories/Strength2.v
theories/Spec_Layout.v
theories/Model_Layout.v
theories/Proof_Layout.v
theories/Props_Layout.v
theories/Spec_Eic.v
theories/Props_Eic.v
theories/Spec_Sink.v
theories/Model_Sink.v
theories/Proof_Sink.v
theories/Props_Sink.v
theories/Strength3.v
theories/Model_Repair.v
theories/Spec_Repair.v
theories/Proof_Repair.v
theories/Props_Repair.v
theories/Model_Features.v
theories/Spec_Features.v
theories/Props_Features.v
theories/Model_InsnClient.v
theories/Props_InsnClient.v
theories/Spec_CostClient.v
theories/Props_CostClient.v
theories/Isa_Tests.v
theories/Spec_MemKey.v
theories/Model_MemKey.v
theories/Proof_MemKey.v
theories/Props_MemKey.v
theories/Spec_Surface.v
theories/Model_Surface.v
theories/Proof_Surface.v
theories/Spec_SurfaceClient.v
theories/Props_Surface.v
theories/Spec_Modes2.v
theories/Proof_Machine.v
theories/Proof_Cmac.v
theories/Proof_Xts.v
theories/Proof_Wrap.v
theories/Props_Modes2.v
theories/Spec_AegisX.v
theories/Proof_AegisX.v
theories/Props_AegisX.v
theories/Rust.v
theories/Source.v
theories/Props_Source.v
theories/Props_SourceX86.v
theories/Props_SourceRest.v
theories/Props_SourceRv32.v
