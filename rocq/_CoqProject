-Q theories Verif
theories/Arith.v
theories/FloatArith.v
theories/Series.v
theories/Sums.v
theories/Utils.v
theories/Momentum.v
theories/Trend.v
theories/Volatility.v
theories/Volume.v
theories/Wrapper.v
theories/Lists.v
theories/Api.v
theories/SpecCausal.v
theories/Align.v
theories/Causal.v
theories/CausalPsar.v
theories/CausalAdx.v
theories/Rows.v
theories/Running.v
theories/CausalMasked.v
theories/CausalBack.v
theories/Samples.v
theories/SpecFill.v
theories/Fill.v
theories/FillStable.v
theories/SpecNum.v
theories/Tab.v
theories/Averages.v
theories/EwmGaps.v
theories/Range.v
theories/Oscillators.v
theories/Returns.v
theories/Kama.v
theories/TrueRange.v
theories/Bands.v
theories/Channels.v
theories/Flows.v
theories/Lines.v
theories/Cycles.v
theories/Directional.v
theories/Sar.v
theories/SpecRaise.v
theories/Raises.v
theories/SpecFrame.v
theories/Frames.v
theories/Defaults.v
theories/DefaultsFacts.v
theories/Scale.v
theories/ScaleOps.v
theories/Scaling.v
theories/ScalingMore.v
theories/SpecScale.v
theories/Units.v
theories/SpecWarm.v
theories/Warmup.v
theories/SpecQuiet.v
theories/Quiet.v
theories/SpecResidue.v
theories/Residue.v
theories/P_Residue.v
theories/P_Structure.v
theories/P_Fill.v
theories/P_Averages.v
theories/StochRsi.v
theories/P_Momentum.v
theories/SpecWrapped.v
theories/Wrapped.v
theories/P_Volatility.v
theories/P_Volume.v
theories/P_Trend.v
theories/P_Wrapper.v
theories/P_Defaults.v
theories/P_Warmup.v
theories/P_Units.v
theories/Conformance.v
theories/SpecMirror.v
theories/Mirror.v
theories/MirrorInd.v
theories/MirrorRsi.v
theories/UoMirror.v
theories/P_Mirror.v
theories/Names.v
theories/SpecNames.v
theories/NamesFacts.v
theories/P_Names.v
theories/SpecMemory.v
theories/Memory.v
theories/SpecStuck.v
theories/Stuck.v
theories/P_Stuck.v
theories/SpecForget.v
theories/Forget.v
theories/P_Memory.v
theories/FilledFrame.v
theories/P_Filled.v
theories/SpecLinear.v
theories/Linear.v
theories/P_Linear.v
theories/FloatReal.v
theories/Order.v
theories/FloatOrder.v
theories/Rounded.v
theories/RoundedInd.v
theories/RoundedAdx.v
theories/RoundedBands.v
theories/FloatPct.v
theories/FloatStoch.v
theories/SpecBinary64.v
theories/Binary64.v
theories/P_Binary64.v
theories/EmaError.v
theories/FloatEma.v
theories/FloatTrack.v
theories/SpecTracking.v
theories/Tracking.v
theories/P_Tracking.v
theories/FloatExact.v
theories/FloatFlat.v
theories/FlatTable.v
theories/P_Exact64.v
theories/SpecRobust.v
theories/Robust.v
theories/P_Robust.v
theories/SpecStop.v
theories/Stop.v
theories/Stop64.v
theories/P_Stop.v
theories/SpecHalt.v
theories/Halt.v
theories/P_Halt.v
theories/SpecDerived.v
theories/Derived.v
theories/P_Derived.v
theories/SpecSteady.v
theories/Steady.v
theories/P_Steady.v
theories/SpecOneWay.v
theories/OneWay.v
theories/P_OneWay.v
theories/RunningError.v
theories/P_Drift.v
theories/Nest.v
theories/P_Nest.v
theories/SpecIdle.v
theories/Idle.v
theories/IdleFloat.v
theories/P_Idle.v
theories/SumError.v
theories/WilderError.v
theories/BandError.v
theories/P_Settled.v
theories/SpecRepeat.v
theories/Local.v
theories/Repeat.v
theories/P_Repeat.v
theories/SpecSwing.v
theories/Swing.v
theories/P_Swing.v
theories/IntColumns.v
theories/SpecInt.v
theories/IntProofs.v
theories/IntFloat.v
theories/P_Int.v
theories/Objects.v
theories/SpecObjects.v
theories/ObjectProofs.v
theories/ObjectCases.v
theories/P_Objects.v
theories/Apart.v
theories/SpecApart.v
theories/ApartProofs.v
theories/ApartCut.v
theories/ApartIndex.v
theories/ApartGaps.v
theories/ApartJoin.v
theories/ApartRaise.v
theories/P_Apart.v
theories/SpecRatio.v
theories/RsiError.v
theories/RatioError.v
theories/PpoError.v
theories/P_Ratio.v
theories/SpecStart.v
theories/Start.v
theories/P_Start.v
theories/SpecFade.v
theories/Fade.v
theories/P_Fade.v
theories/SpecSarMeet.v
theories/SarMeet.v
theories/SarMirror.v
theories/P_SarMeet.v
theories/RollError.v
theories/P_Roll.v
theories/CciError.v
theories/P_Cci.v
theories/SpecFlow.v
theories/MfiError.v
theories/P_Mfi.v
theories/UlcerError.v
theories/P_Ulcer.v
theories/NviError.v
theories/P_Nvi.v
theories/TotalError.v
theories/P_Total.v
theories/FiError.v
theories/P_Force.v
theories/EomError.v
theories/P_Eom.v
