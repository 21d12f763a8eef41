-Q theories Verif

theories/Base.v
theories/Config.v
theories/Cfgs.v
theories/Codec.v
theories/Checksum.v
theories/State.v
theories/Queue.v
theories/Daq.v
theories/Core.v
theories/Spec.v
theories/Lists.v
theories/Effects.v
theories/Handlers.v
theories/HTx.v
theories/HInv.v
theories/HInv2.v
theories/HFields.v
theories/HResp.v
theories/DaqInv.v
theories/HSpec.v
theories/Steps.v
theories/Demo.v
theories/Ops.v
theories/ProofsSession.v
theories/CasesSession.v
theories/PropertiesSession.v
theories/Exec.v
theories/SpecFrames.v
theories/ProofsFrames.v
theories/CasesFrames.v
theories/PropertiesFrames.v
theories/SpecProt.v
theories/ProofsProt.v
theories/CasesProt.v
theories/PropertiesProt.v
theories/SpecMem.v
theories/ProofsMem.v
theories/ProofsBlock.v
theories/ProofsWrite.v
theories/ProofsModify.v
theories/ProofsRx.v
theories/ProofsMem2.v
theories/CasesMem.v
theories/PropertiesMem.v
theories/SpecDaq.v
theories/ProofsDaqA.v
theories/ProofsDaqB.v
theories/ProofsDaqC.v
theories/ProofsDaqD.v
theories/ProofsDaqE.v
theories/ProofsDaqF.v
theories/ProofsDaqG.v
theories/ProofsDaqH.v
theories/ProofsDaqI.v
theories/ProofsDaqJ.v
theories/DemoDaq.v
theories/CasesDaq.v
theories/PropertiesDaq.v
theories/CasesDaq2.v
theories/PropertiesDaq2.v
theories/SpecCks.v
theories/ProofsCrc.v
theories/ProofsCks.v
theories/ProofsCks2.v
theories/CasesChecksum.v
theories/PropertiesChecksum.v
theories/SpecMisc.v
theories/ProofsMisc.v
theories/CasesMisc.v
theories/PropertiesMisc.v
theories/Util.v
theories/SpecUtil.v
theories/ProofsUtil.v
theories/PropertiesUtil.v
theories/Sxi.v
theories/SpecSxi.v
theories/ProofsSxi.v
theories/CasesSxi.v
theories/PropertiesSxi.v
theories/Eth.v
theories/SpecEth.v
theories/ProofsEth.v
theories/PropertiesEth.v
theories/Flsemu.v
theories/SpecFls.v
theories/ProofsFls.v
theories/PropertiesFls.v
theories/Hw.v
theories/SpecHw.v
theories/ProofsHw.v
theories/PropertiesHw.v
theories/Net.v
theories/SpecNet.v
theories/ProofsNet.v
theories/PropertiesNet.v
theories/SpecDlc.v
theories/ProofsDlc.v
theories/PropertiesDlc.v
theories/Can.v
theories/SpecCan.v
theories/ProofsCan.v
theories/PropertiesCan.v
theories/Xcpsim.v
theories/ProofsXcpsim.v
theories/PropertiesXcpsim.v
theories/ProofsInfo.v
theories/ProofsInfo2.v
theories/SpecInfo.v
theories/ProofsInfo3.v
theories/PropertiesInfo.v
theories/PropertiesMax.v
theories/SpecSafe.v
theories/ProofsSafe.v
theories/ProofsSafe2.v
theories/DemoSafe.v
theories/PropertiesSafe.v
theories/Predef.v
theories/SpecPre.v
theories/ProofsPre.v
theories/ProofsPre2.v
theories/ProofsPre3.v
theories/DemoPre.v
theories/PropertiesPre.v
theories/SpecPreSafe.v
theories/ProofsPreSafe.v
theories/CasesPreSafe.v
theories/PropertiesPreSafe.v
theories/ProofsTight.v
theories/ProofsTight2.v
theories/PropertiesTight.v
theories/Ino.v
theories/SpecIno.v
theories/ProofsIno.v
theories/PropertiesIno.v
theories/Iocp.v
theories/SpecIocp.v
theories/ProofsIocp.v
theories/DemoIocp.v
theories/PropertiesIocp.v
theories/Kv.v
theories/SpecKv.v
theories/ProofsKv.v
theories/PropertiesKv.v
theories/Conc.v
theories/Race.v
theories/Ring.v
theories/SpecConc.v
theories/ProofsConc0.v
theories/ProofsRing.v
theories/ProofsRing2.v
theories/ProofsRace.v
theories/ProofsRace2.v
theories/ProofsRace3.v
theories/DemoConc.v
theories/PropertiesConc.v
theories/FlsWin.v
theories/SpecFlsWin.v
theories/ProofsFlsWin.v
theories/PropertiesFlsWin.v
theories/SpecE2e.v
theories/ProofsE2e.v
theories/PropertiesE2e.v
theories/Tcp.v
theories/SpecTcp.v
theories/ProofsTcp.v
theories/CasesTcp.v
theories/PropertiesTcp.v
theories/Serial.v
theories/SpecSerial.v
theories/ProofsSerial.v
theories/CasesSerial.v
theories/PropertiesSerial.v
theories/Stats.v
theories/SpecStats.v
theories/ProofsStats.v
theories/CasesStats.v
theories/PropertiesStats.v
theories/Options.v
theories/SpecOptions.v
theories/ProofsOptions.v
theories/CasesOptions.v
theories/PropertiesOptions.v
theories/Show.v
theories/SpecShow.v
theories/ProofsShow.v
theories/CasesShow.v
theories/PropertiesShow.v
theories/SpecRef.v
theories/ProofsRef.v
theories/ProofsRef2.v
theories/CasesRef.v
theories/PropertiesRef.v
theories/SpecStack.v
theories/ProofsStack.v
theories/CasesStack.v
theories/PropertiesStack.v
theories/Live.v
theories/SpecLive.v
theories/ProofsLive.v
theories/CasesLive.v
theories/PropertiesLive.v
theories/Program.v
theories/SpecProgram.v
theories/ProofsProgram.v
theories/PropertiesProgram.v
theories/CanBus.v
theories/SpecBus.v
theories/ProofsBus.v
theories/CasesBus.v
theories/PropertiesBus.v
theories/SpecTask.v
theories/ProofsTask.v
theories/CasesTask.v
theories/PropertiesTask.v
theories/SpecConvey.v
theories/ProofsConvey.v
theories/CasesConvey.v
theories/PropertiesConvey.v
theories/Sampler.v
theories/SpecSampler.v
theories/ProofsSampler.v
theories/ProofsSampler2.v
theories/ProofsSampler3.v
theories/ProofsSampler4.v
theories/CasesSampler.v
theories/PropertiesSampler.v
theories/Amalgam.v
theories/SpecAmalgam.v
theories/ProofsAmalgam.v
theories/ProofsAmalgam2.v
theories/ProofsAmalgam3.v
theories/CasesAmalgam.v
theories/PropertiesAmalgam.v
theories/Job.v
theories/SpecJob.v
theories/ProofsJob.v
theories/ProofsJob2.v
theories/CasesJob.v
theories/PropertiesJob.v
theories/ProofsOvl.v
theories/CasesOvl.v
theories/PropertiesOvl.v
theories/SpecTwice.v
theories/ProofsTwice.v
theories/PropertiesTwice.v
theories/SpecPreE2e.v
theories/ProofsPre4.v
theories/ProofsPreE2e.v
theories/CasesPreE2e.v
theories/PropertiesPreE2e.v
theories/CInt.v
theories/CExpr.v
theories/SpecCInt.v
theories/ProofsCInt.v
theories/ProofsCInt2.v
theories/ProofsCInt3.v
theories/ProofsCInt4.v
theories/PropertiesCInt.v
theories/Mac.v
theories/SpecMac.v
theories/ProofsMac.v
theories/PropertiesMac.v
theories/Posix.v
theories/SpecPosix.v
theories/ProofsPosix.v
theories/PropertiesPosix.v
theories/Cpp.v
theories/SpecCpp.v
theories/ProofsCpp.v
theories/ProofsCpp2.v
theories/PropertiesCpp.v
theories/Checks.v
theories/SpecChecks.v
theories/ProofsChecks.v
theories/ProofsChecks2.v
theories/ProofsChecks3.v
theories/CasesChecks.v
theories/PropertiesChecks.v
theories/Units.v
theories/SpecUnits.v
theories/ProofsUnits.v
theories/PropertiesUnits.v
theories/Clocks.v
theories/SpecClocks.v
theories/ProofsClocks.v
theories/PropertiesClocks.v
theories/Signals.v
theories/ProofsSignals.v
theories/PropertiesSignals.v
theories/Addr.v
theories/SpecAddr.v
theories/ProofsAddr.v
theories/PropertiesAddr.v
