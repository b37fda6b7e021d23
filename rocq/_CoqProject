-Q theories Verif
theories/PyBase.v
theories/Num.v
theories/Arr.v
theories/BaseModel.v
theories/XReal.v
theories/Float64.v
theories/NumOrdLemmas.v
theories/Spec.v
theories/ArrLemmas.v
theories/SpecBase.v
theories/BaseLemmas.v
theories/BaseLemmas2.v
theories/Cwh.v
theories/Utils.v
theories/Rot2d.v
theories/SixDof.v
theories/Sun.v
theories/Integ.v
theories/Dubins.v
theories/SpecWrap.v
theories/WrapLemmas.v
theories/F64Wrap.v
theories/BaseLemmas3.v
theories/BaseLemmas4.v
theories/XTac.v
theories/Witness.v
theories/BaseLemmas5.v
theories/Properties_Base.v
theories/Heap.v
theories/SpecHeap.v
theories/HeapLemmas.v
theories/Properties_Heap.v
theories/SpecRk.v
theories/RkLemmas.v
theories/SpecCwh.v
theories/CwhLemmas.v
theories/LimLemmas.v
theories/Properties_Cwh.v
theories/Rot2dLemmas.v
theories/RotProps.v
theories/Properties_Rot.v
theories/SpecSixDof.v
theories/SixDofLemmas.v
theories/SixDofProps.v
theories/Properties_SixDof.v
theories/SpecDubins.v
theories/DubinsLemmas.v
theories/DubinsProps.v
theories/Properties_Dubins.v
theories/Classes.v
theories/SpecInteg.v
theories/IntegLemmas.v
theories/Units.v
theories/SpecClasses.v
theories/ClassLemmas.v
theories/EqLemmas.v
theories/EqLemmas2.v
theories/ConfigLemmas.v
theories/IntegProps.v
theories/ConfigProps.v
theories/Properties_Integ.v
theories/Properties_Classes.v
theories/AeroTables.v
theories/SpecTables.v
theories/Aero.v
theories/SpecAero.v
theories/AeroLemmas.v
theories/AeroLemmas2.v
theories/AeroLemmas3.v
theories/AeroTotal.v
theories/AeroProps.v
theories/AeroProps2.v
theories/AeroProps3.v
theories/Properties_Aero.v
theories/Morelli.v
theories/F16.v
theories/AeroUtil.v
theories/SpecF16.v
theories/F16Lemmas.v
theories/F16Lemmas2.v
theories/F16Lemmas3.v
theories/F16Props.v
theories/SpecMorelli.v
theories/MorelliLemmas.v
theories/F16Sym.v
theories/F16Mem.v
theories/F16MemLemmas.v
theories/SpecF16Ctl.v
theories/F16Ctl.v
theories/F64Bound.v
theories/F16CtlProps.v
theories/SpecTrim.v
theories/F16Trim.v
theories/F16Total.v
theories/F16Examples.v
theories/Properties_F16.v
theories/SpecUtil.v
theories/EulerLemmas.v
theories/EulerF64.v
theories/EulerMem.v
theories/EulerMemLemmas.v
theories/UtilLemmas.v
theories/UtilExamples.v
theories/Properties_AeroUtil.v
theories/SpecFlow.v
theories/FlowLemmas.v
theories/OrbitLemmas.v
theories/Properties_Flow.v
theories/MotionLemmas.v
theories/TurnLemmas.v
theories/Properties_Motion.v
theories/SpecMethod.v
theories/MethodLemmas.v
theories/NanLemmas.v
theories/Properties_Method.v
theories/SpecSpin.v
theories/SpinLemmas.v
theories/Properties_Spin.v
theories/SpecEnergy.v
theories/EnergyLemmas.v
theories/SpecGlide.v
theories/GlideLemmas.v
theories/Properties_Energy.v
theories/SpecMirror.v
theories/MirrorLemmas.v
theories/Properties_Mirror.v
theories/SpecShift.v
theories/ShiftLemmas.v
theories/Properties_Shift.v
theories/SpecFleet.v
theories/FleetLemmas.v
theories/Hash.v
theories/SpecSettings.v
theories/ObjectLemmas.v
theories/Properties_Objects.v
theories/SpecSym.v
theories/SymLemmas.v
theories/SymLemmas2.v
theories/SymLemmas3.v
theories/Properties_Sym.v
theories/TrimPoint.v
theories/Properties_Trim.v
theories/SpecWork.v
theories/WorkLemmas.v
theories/Properties_Work.v
theories/Golden.v
theories/GoldenCwh.v
theories/GoldenSixDof.v
theories/GoldenRot2d.v
theories/GoldenDubins2d.v
theories/GoldenDubins3d.v
theories/GoldenDubins3dB.v
theories/GoldenF16.v
theories/SpecCommand.v
theories/CommandLemmas.v
theories/Properties_Command.v
theories/SpecRound.v
theories/F64Err.v
theories/RoundCwh.v
theories/RoundRun.v
theories/SpecLong.v
theories/RoundLong.v
theories/RoundLongEx.v
theories/Properties_Round.v
theories/ConvLemmas.v
theories/ConvRot.v
theories/ConvEx.v
theories/Properties_Conv.v
theories/SpecSplit.v
theories/SplitLemmas.v
theories/Properties_Split.v
theories/ParamLemmas.v
theories/SpecRestore.v
theories/RestoreLemmas.v
theories/Partner.v
theories/SpecPartner.v
theories/PartnerLemmas.v
theories/Properties_Life.v
theories/SpecLin.v
theories/LinRound.v
theories/LinRun.v
theories/LinInteg.v
theories/Properties_Linear.v
theories/WrapErr.v
theories/SpecFly.v
theories/FlyRound.v
theories/FlyRun.v
theories/FlyEx.v
theories/Properties_Fly.v
theories/SpecFly3.v
theories/Fly3Round.v
theories/Fly3Run.v
theories/Fly3Ex.v
theories/Properties_Fly3.v
theories/F32.v
theories/Fresh.v
theories/SpecFresh.v
theories/FreshLemmas.v
theories/FreshEx.v
theories/Fresh3.v
theories/Fresh3Run.v
theories/Properties_Fresh.v
theories/SpecSingle.v
theories/SingleRound.v
theories/SingleEx.v
theories/SingleSix.v
theories/SingleSixEx.v
theories/Properties_Single.v
theories/SpecOrbit.v
theories/OrbitRun.v
theories/OrbitRunEx.v
theories/Properties_Track.v
theories/SpecPath.v
theories/PathRun.v
theories/Properties_Path.v
theories/SpecCoast.v
theories/CoastRun.v
theories/Properties_Coast.v
theories/SpecPath3.v
theories/Path3Run.v
theories/Properties_Path3.v
theories/NewPath.v
theories/Properties_NewPath.v
theories/SpecSteer.v
theories/SteerRun.v
theories/SteerEx.v
theories/Properties_Steer.v
theories/SpecIface.v
theories/IfaceLemmas.v
theories/Properties_Iface.v
theories/DefaultLemmas.v
theories/Properties_Default.v
theories/DefaultOrbit.v
theories/Properties_Orbit.v
