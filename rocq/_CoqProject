-Q theories Verif
theories/Bits.v
theories/CsrSpec.v
theories/CsrModel.v
theories/CsrProofs.v
theories/CsrProps.v
theories/StatusSpec.v
theories/StatusModel.v
theories/StatusProofs.v
theories/StatusProps.v
theories/XipSpec.v
theories/XipModel.v
theories/XipProofs.v
theories/XipProps.v
theories/CounterSpec.v
theories/CounterModel.v
theories/CounterProofs.v
theories/CounterProps.v
theories/HartSpec.v
theories/HartModel.v
theories/HartProofs.v
theories/HartProofs2.v
theories/HartProofs3.v
theories/HartProps.v
theories/IntSpec.v
theories/IntModel.v
theories/IntProofs.v
theories/IntProofs2.v
theories/IntProofs3.v
theories/IntProps.v
theories/Memory.v
theories/AccessSpec.v
theories/AccessModel.v
theories/AccessProofs.v
theories/AccessProps.v
theories/ZcmpSpec.v
theories/ZcmpModel.v
theories/ZcmpProofs.v
theories/ZcmpProps.v
theories/ClintSpec.v
theories/ClintModel.v
theories/ClintProofs.v
theories/ClintProps.v
theories/PlicSpec.v
theories/PlicModel.v
theories/PlicHist.v
theories/PlicProofs.v
theories/PlicProofs2.v
theories/PlicProofs3.v
theories/PlicProofs4.v
theories/PlicProps.v
theories/DbgSpec.v
theories/DbgModel.v
theories/DbgProofs.v
theories/DbgProofs2.v
theories/DbgProofs3.v
theories/DbgProofs4.v
theories/DbgProps.v
theories/FmtSpec.v
theories/FmtModel.v
theories/FmtLink.v
theories/FmtProofs.v
theories/FmtProps.v
theories/VcfgSpec.v
theories/VcfgModel.v
theories/VcfgProofs.v
theories/VcfgProps.v
theories/VelemSpec.v
theories/VelemModel.v
theories/VelemProofs1.v
theories/VelemProofs2.v
theories/VelemProofs3.v
theories/VelemProofs4.v
theories/VelemProofs5.v
theories/VelemProofs6.v
theories/VelemProps.v
theories/VmaskSpec.v
theories/VmaskModel.v
theories/VmaskProofs1.v
theories/VmaskProofs2.v
theories/VmaskProofs3.v
theories/VmaskProofs4.v
theories/VmaskProps.v
theories/VpermSpec.v
theories/VpermModel.v
theories/VpermProofs.v
theories/VpermProps.v
theories/VmemSpec.v
theories/VmemModel.v
theories/VmemProofs1.v
theories/VmemProofs2.v
theories/VmemProofs3.v
theories/VmemProofs4.v
theories/VmemProofs5.v
theories/VmemProofs6.v
theories/VmemProofs7.v
theories/VmemProps.v
theories/FcsrSpec.v
theories/FcsrModel.v
theories/FcsrProofs.v
theories/FcsrProps.v
theories/IeeeSpec.v
theories/FpSpec.v
theories/FpModel.v
theories/FpProofs.v
theories/FpHalf.v
theories/FpCvt.v
theories/FpWiden.v
theories/FpExec.v
theories/FpProps.v
theories/FarithSpec.v
theories/FarithModel.v
theories/FarithProofs.v
theories/FarithExec.v
theories/FarithProps.v
theories/DecSpec.v
theories/DecManual.v
theories/DecModel.v
theories/DecCheck.v
theories/DecProofs.v
theories/DecTables.v
theories/DecProps.v
theories/StepSpec.v
theories/StepModel.v
theories/StepCheck.v
theories/StepProofs.v
theories/StepTables.v
theories/StepUnique.v
theories/StepEval.v
theories/StepProps.v
theories/AmoSpec.v
theories/AmoModel.v
theories/AmoProofs.v
theories/AmoProps.v
theories/RoundProofs.v
theories/RoundTwice.v
theories/HalfSpec.v
theories/HalfModel.v
theories/HalfProofs.v
theories/HalfConv.v
theories/HalfArith.v
theories/HalfExec.v
theories/HalfProps.v
theories/FvSpec.v
theories/FvModel.v
theories/FvLoop.v
theories/FvWide.v
theories/SqrtTwice.v
theories/SqrtWide.v
theories/FvElem.v
theories/FvConv.v
theories/FvRecip.v
theories/FvMain.v
theories/FvProps.v
theories/FrSpec.v
theories/FrModel.v
theories/FrProofs.v
theories/FrProps.v
theories/SemSpec.v
theories/SemModel.v
theories/SemProofs.v
theories/SemProps.v
theories/HtifSpec.v
theories/HtifModel.v
theories/HtifProps.v
theories/MachSpec.v
theories/MachModel.v
theories/MachCheck.v
theories/MachProofs.v
theories/MachProps.v
theories/FstepSpec.v
theories/FstepModel.v
theories/FstepProofs.v
theories/FstepTables.v
theories/FstepProps.v
theories/RelocSpec.v
theories/RelocModel.v
theories/RelocProps.v
theories/MisaSpec.v
theories/MisaModel.v
theories/MisaProps.v
theories/GdbSpec.v
theories/GdbModel.v
theories/GdbProps.v
theories/CsrTabSpec.v
theories/CsrTabModel.v
theories/CsrTabProps.v
theories/WatchSpec.v
theories/WatchModel.v
theories/WatchProps.v
theories/RenodeSpec.v
theories/RenodeModel.v
theories/RenodeProps.v
theories/SimModeSpec.v
theories/SimModeModel.v
theories/SimModeProps.v
