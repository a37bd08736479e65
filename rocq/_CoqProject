-Q theories Verif

theories/Base.v
theories/BaseProofs.v
theories/Tables.v
theories/BitsModel.v
theories/BitsWriteSafe.v
theories/BitsAbstract.v
theories/BitsWriteSim.v
theories/BitsReadSim.v
theories/BitsReadSafe.v
theories/BitsRoundTrip.v
theories/TableProofs.v
theories/P_Bits.v
theories/P_Tables.v
theories/ConfigModel.v
theories/ConfigSpec.v
theories/ConfigProofs.v
theories/P_Config.v
theories/SideModel.v
theories/SideSpec.v
theories/SideProofs.v
theories/PvqModel.v
theories/PvqProofs.v
theories/SideFrame.v
theories/P_Side.v
theories/SpecModel.v
theories/SpecProofs.v
theories/SpecPairs.v
theories/SpecSpec.v
theories/SpecFrame.v
theories/FrameBase.v
theories/P_Spec.v
theories/FloatModel.v
theories/FloatProofs.v
theories/ResidualModel.v
theories/ResidualSpec.v
theories/ResidualProofs.v
theories/ResidualInst.v
theories/ResidualModes.v
theories/P_Residual.v
theories/FrameModel.v
theories/FrameSpec.v
theories/FrameProofs.v
theories/FrameSafe.v
theories/P_Frame.v
theories/PcmModel.v
theories/PcmSpec.v
theories/PcmProofs.v
theories/P_Pcm.v
theories/DecoderModel.v
theories/DecoderSpec.v
theories/DecoderProofs.v
theories/P_Decoder.v
theories/LtpfTables.v
theories/LtpfModel.v
theories/LtpfSpec.v
theories/LtpfProofs.v
theories/LtpfFrame.v
theories/P_Ltpf.v
theories/FrontModel.v
theories/FrontSpec.v
theories/FrontHp50.v
theories/FrontProofs.v
theories/FrontPitch.v
theories/FrontAttack.v
theories/FrontRun.v
theories/FrontStream.v
theories/P_Front.v
theories/BudgetModel.v
theories/BudgetSpec.v
theories/BudgetProofs.v
theories/BudgetCount.v
theories/BudgetFrame.v
theories/P_Budget.v
theories/BlockModel.v
theories/BinModel.v
theories/BlockProofs.v
theories/BinProofs.v
theories/P_Tools.v
theories/MdctModel.v
theories/MdctProofs.v
theories/MdctFft.v
theories/MdctSpec.v
theories/MdctMath.v
theories/MdctExact.v
theories/MdctStream.v
theories/MdctTables.v
theories/MdctTwiddles.v
theories/MdctWindows.v
theories/P_Mdct.v
theories/GainModel.v
theories/GainProofs.v
theories/GainFloat.v
theories/P_Gain.v
theories/NoiseModel.v
theories/NoiseSpec.v
theories/NoiseProofs.v
theories/NoiseLevel.v
theories/NoiseHoles.v
theories/P_Noise.v
theories/SilenceProofs.v
theories/P_Silence.v
theories/ShapeTables.v
theories/FloatOps.v
theories/LoopProofs.v
theories/RealOps.v
theories/Binary32.v
theories/TnsModel.v
theories/TnsProofs.v
theories/TnsFilter.v
theories/TnsStable.v
theories/TnsMain.v
theories/TnsReal.v
theories/TnsExample.v
theories/P_Tns.v
theories/BandModel.v
theories/BandProofs.v
theories/P_Band.v
theories/FloatLaws.v
theories/F32Model.v
theories/F32Proofs.v
theories/SnsModel.v
theories/SnsProofs.v
theories/SnsShape.v
theories/SnsMain.v
theories/SnsFloat.v
theories/SnsProject.v
theories/SnsReal.v
theories/P_Sns.v
theories/MdctValues.v
theories/SynthModel.v
theories/SynthProofs.v
theories/SynthSpec.v
theories/SynthPipe.v
theories/P_Synth.v
theories/SpecEncModel.v
theories/SpecEncFloat.v
theories/SpecEncProofs.v
theories/P_SpecEnc.v
theories/EncModel.v
theories/EncSpec.v
theories/EncProofs.v
theories/EncRun.v
theories/EncExample.v
theories/P_Enc.v
theories/FastReal.v
theories/FastFloat.v
theories/FastExp.v
theories/FastDb.v
theories/P_Fast.v
theories/SnsGain.v
theories/P_SnsGain.v
theories/MdctGrade.v
theories/MdctFloat.v
theories/TnsZero.v
theories/EncShape.v
theories/SpecZero.v
theories/SilentRun.v
theories/SilentDec.v
theories/P_Silent.v
theories/SimdTables.v
theories/SimdModel.v
theories/SimdProofs.v
theories/SimdRun.v
theories/P_Simd.v
theories/MdctNeonModel.v
theories/MdctNeonF32Model.v
theories/MdctNeonProofs.v
theories/MdctNeonStream.v
theories/MdctNeonGrade.v
theories/MdctNeonFloat.v
theories/P_MdctNeon.v
theories/ErrNorm.v
theories/ErrF32.v
theories/MdctErr.v
theories/MdctRoots.v
theories/MdctTabErr.v
theories/MdctErrCore.v
theories/MdctErrDct.v
theories/MdctErrSpec.v
theories/MdctErrFwd.v
theories/MdctErrTrans.v
theories/MdctErrInv.v
theories/MdctErrCode.v
theories/MdctErrStream.v
theories/MdctErrRate.v
theories/MdctErrAny.v
theories/MdctNeonErr.v
theories/MdctNeonErrCode.v
theories/P_MdctError.v
theories/P_MdctNeonError.v
theories/GainLevelSpec.v
theories/GainSpectrum.v
theories/P_GainFloat.v
theories/GainFloor.v
theories/P_GainHr.v
theories/P_Centroid.v
theories/SpecEncHr.v
theories/P_SpecEncHr.v
theories/P_SpecReg.v
theories/EncHrSpec.v
theories/EncHr.v
theories/P_EncHr.v
theories/P_EncLtpf.v
theories/P_BandFinite.v
theories/EncFinite.v
theories/P_EncFinite.v
