(** Model of the execution of F and D computational instruction words (C93): the rows of the slots riscv32f, riscv32d,
    riscv64f and riscv64d, the getters of their operands and the dispatch to the semantic functions, which are modelled
    in FpModel.v and FarithModel.v.  Simulators: RV32G, RV64G, RV32GV, RV64GV (in the GZB simulators the getters
    of riscv_getters.h:124-159, 329-342 fetch f registers with the type of the x registers; what mpact-sim does then is
    not modelled). *)
From Coq Require Import ZArith List String Bool.
From Verif Require Import Bits FmtModel DecSpec DecModel Memory AccessSpec StepSpec StepModel IeeeSpec FpSpec FarithSpec FstepSpec IntModel FpModel FarithModel.
Import ListNotations.
Local Open Scope string_scope.
Local Open Scope Z_scope.

(** riscv32g.isa:629-745 (slot riscv32f) and 748-860 (slot riscv32d); the loads and stores are in StepModel.v. *)
Definition fp_isa_32 : list irow := [
   mk_irow "fadd_s" 4 ["Frs1"; "Frs2"; "Rm"] ["Frd"] "RiscVFAdd" "";
   mk_irow "fsub_s" 4 ["Frs1"; "Frs2"; "Rm"] ["Frd"] "RiscVFSub" "";
   mk_irow "fmul_s" 4 ["Frs1"; "Frs2"; "Rm"] ["Frd"] "RiscVFMul" "";
   mk_irow "fdiv_s" 4 ["Frs1"; "Frs2"; "Rm"] ["Frd"] "RiscVFDiv" "";
   mk_irow "fsqrt_s" 4 ["Frs1"; "Rm"] ["Frd"; "Fflags"] "RiscVFSqrt" "";
   mk_irow "fmin_s" 4 ["Frs1"; "Frs2"] ["Frd"; "Fflags"] "RiscVFMin" "";
   mk_irow "fmax_s" 4 ["Frs1"; "Frs2"] ["Frd"; "Fflags"] "RiscVFMax" "";
   mk_irow "fmadd_s" 4 ["Frs1"; "Frs2"; "Frs3"; "Rm"] ["Frd"; "Fflags"] "RiscVFMadd" "";
   mk_irow "fmsub_s" 4 ["Frs1"; "Frs2"; "Frs3"; "Rm"] ["Frd"; "Fflags"] "RiscVFMsub" "";
   mk_irow "fnmadd_s" 4 ["Frs1"; "Frs2"; "Frs3"; "Rm"] ["Frd"; "Fflags"] "RiscVFNmadd" "";
   mk_irow "fnmsub_s" 4 ["Frs1"; "Frs2"; "Frs3"; "Rm"] ["Frd"; "Fflags"] "RiscVFNmsub" "";
   mk_irow "fcvt_ws" 4 ["Frs1"; "Rm"] ["Rd"; "Fflags"] "RV32::RiscVFCvtWs" "";
   mk_irow "fcvt_sw" 4 ["Rs1"; "Rm"] ["Frd"] "RiscVFCvtSw" "";
   mk_irow "fcvt_wus" 4 ["Frs1"; "Rm"] ["Rd"; "Fflags"] "RV32::RiscVFCvtWus" "";
   mk_irow "fcvt_swu" 4 ["Rs1"; "Rm"] ["Frd"] "RiscVFCvtSwu" "";
   mk_irow "fsgnj_s" 4 ["Frs1"; "Frs2"] ["Frd"] "RiscVFSgnj" "";
   mk_irow "fsgnjn_s" 4 ["Frs1"; "Frs2"] ["Frd"] "RiscVFSgnjn" "";
   mk_irow "fsgnjx_s" 4 ["Frs1"; "Frs2"] ["Frd"] "RiscVFSgnjx" "";
   mk_irow "fmv_xw" 4 ["Frs1"] ["Rd"] "RV32::RiscVFMvxw" "";
   mk_irow "fmv_wx" 4 ["Rs1"] ["Frd"] "RiscVFMvwx" "";
   mk_irow "fcmpeq_s" 4 ["Frs1"; "Frs2"] ["Rd"; "Fflags"] "RV32::RiscVFCmpeq" "";
   mk_irow "fcmplt_s" 4 ["Frs1"; "Frs2"] ["Rd"; "Fflags"] "RV32::RiscVFCmplt" "";
   mk_irow "fcmple_s" 4 ["Frs1"; "Frs2"] ["Rd"; "Fflags"] "RV32::RiscVFCmple" "";
   mk_irow "fclass_s" 4 ["Frs1"] ["Rd"] "RV32::RiscVFClass" "";
   mk_irow "fadd_d" 4 ["Drs1"; "Drs2"; "Rm"] ["Drd"] "RiscVDAdd" "";
   mk_irow "fsub_d" 4 ["Drs1"; "Drs2"; "Rm"] ["Drd"] "RiscVDSub" "";
   mk_irow "fmul_d" 4 ["Drs1"; "Drs2"; "Rm"] ["Drd"] "RiscVDMul" "";
   mk_irow "fdiv_d" 4 ["Drs1"; "Drs2"; "Rm"] ["Drd"] "RiscVDDiv" "";
   mk_irow "fsqrt_d" 4 ["Drs1"; "Rm"] ["Drd"; "Fflags"] "RiscVDSqrt" "";
   mk_irow "fmin_d" 4 ["Drs1"; "Drs2"] ["Drd"; "Fflags"] "RiscVDMin" "";
   mk_irow "fmax_d" 4 ["Drs1"; "Drs2"] ["Drd"; "Fflags"] "RiscVDMax" "";
   mk_irow "fmadd_d" 4 ["Drs1"; "Drs2"; "Drs3"; "Rm"] ["Drd"; "Fflags"] "RiscVDMadd" "";
   mk_irow "fmsub_d" 4 ["Drs1"; "Drs2"; "Drs3"; "Rm"] ["Drd"; "Fflags"] "RiscVDMsub" "";
   mk_irow "fnmadd_d" 4 ["Drs1"; "Drs2"; "Drs3"; "Rm"] ["Drd"; "Fflags"] "RiscVDNmadd" "";
   mk_irow "fnmsub_d" 4 ["Drs1"; "Drs2"; "Drs3"; "Rm"] ["Drd"; "Fflags"] "RiscVDNmsub" "";
   mk_irow "fcvt_wd" 4 ["Drs1"; "Rm"] ["Rd"; "Fflags"] "RV32::RiscVDCvtWd" "";
   mk_irow "fcvt_dw" 4 ["Rs1"; "Rm"] ["Drd"] "RiscVDCvtDw" "";
   mk_irow "fcvt_wud" 4 ["Drs1"; "Rm"] ["Rd"; "Fflags"] "RV32::RiscVDCvtWud" "";
   mk_irow "fcvt_dwu" 4 ["Rs1"; "Rm"] ["Drd"] "RiscVDCvtDwu" "";
   mk_irow "fcvt_sd" 4 ["Drs1"; "Rm"] ["Drd"] "RiscVDCvtSd" "";
   mk_irow "fcvt_ds" 4 ["Drs1"; "Rm"] ["Drd"] "RiscVDCvtDs" "";
   mk_irow "fsgnj_d" 4 ["Drs1"; "Drs2"] ["Drd"] "RiscVDSgnj" "";
   mk_irow "fsgnjn_d" 4 ["Drs1"; "Drs2"] ["Drd"] "RiscVDSgnjn" "";
   mk_irow "fsgnjx_d" 4 ["Drs1"; "Drs2"] ["Drd"] "RiscVDSgnjx" "";
   mk_irow "fcmpeq_d" 4 ["Drs1"; "Drs2"] ["Rd"; "Fflags"] "RV32::RiscVDCmpeq" "";
   mk_irow "fcmplt_d" 4 ["Drs1"; "Drs2"] ["Rd"; "Fflags"] "RV32::RiscVDCmplt" "";
   mk_irow "fcmple_d" 4 ["Drs1"; "Drs2"] ["Rd"; "Fflags"] "RV32::RiscVDCmple" "";
   mk_irow "fclass_d" 4 ["Drs1"] ["Rd"] "RV32::RiscVDClass" ""].

(** riscv64g.isa:765-895 (slot riscv64f) and 899-1036 (slot riscv64d). *)
Definition fp_isa_64 : list irow := [
   mk_irow "fadd_s" 4 ["Frs1"; "Frs2"; "Rm"] ["Frd"] "RiscVFAdd" "";
   mk_irow "fsub_s" 4 ["Frs1"; "Frs2"; "Rm"] ["Frd"] "RiscVFSub" "";
   mk_irow "fmul_s" 4 ["Frs1"; "Frs2"; "Rm"] ["Frd"] "RiscVFMul" "";
   mk_irow "fdiv_s" 4 ["Frs1"; "Frs2"; "Rm"] ["Frd"] "RiscVFDiv" "";
   mk_irow "fsqrt_s" 4 ["Frs1"; "Rm"] ["Frd"; "Fflags"] "RiscVFSqrt" "";
   mk_irow "fmin_s" 4 ["Frs1"; "Frs2"] ["Frd"; "Fflags"] "RiscVFMin" "";
   mk_irow "fmax_s" 4 ["Frs1"; "Frs2"] ["Frd"; "Fflags"] "RiscVFMax" "";
   mk_irow "fmadd_s" 4 ["Frs1"; "Frs2"; "Frs3"; "Rm"] ["Frd"; "Fflags"] "RiscVFMadd" "";
   mk_irow "fmsub_s" 4 ["Frs1"; "Frs2"; "Frs3"; "Rm"] ["Frd"; "Fflags"] "RiscVFMsub" "";
   mk_irow "fnmadd_s" 4 ["Frs1"; "Frs2"; "Frs3"; "Rm"] ["Frd"; "Fflags"] "RiscVFNmadd" "";
   mk_irow "fnmsub_s" 4 ["Frs1"; "Frs2"; "Frs3"; "Rm"] ["Frd"; "Fflags"] "RiscVFNmsub" "";
   mk_irow "fcvt_ws" 4 ["Frs1"; "Rm"] ["Rd"; "Fflags"] "RV64::RiscVFCvtWs" "";
   mk_irow "fcvt_ls" 4 ["Frs1"; "Rm"] ["Rd"; "Fflags"] "RV64::RiscVFCvtLs" "";
   mk_irow "fcvt_sw" 4 ["Rs1"; "Rm"] ["Frd"] "RiscVFCvtSw" "";
   mk_irow "fcvt_sl" 4 ["Rs1"; "Rm"] ["Frd"] "RiscVFCvtSl" "";
   mk_irow "fcvt_wus" 4 ["Frs1"; "Rm"] ["Rd"; "Fflags"] "RV64::RiscVFCvtWus" "";
   mk_irow "fcvt_lus" 4 ["Frs1"; "Rm"] ["Rd"; "Fflags"] "RV64::RiscVFCvtLus" "";
   mk_irow "fcvt_swu" 4 ["Rs1"; "Rm"] ["Frd"] "RiscVFCvtSwu" "";
   mk_irow "fcvt_slu" 4 ["Rs1"; "Rm"] ["Frd"] "RiscVFCvtSlu" "";
   mk_irow "fsgnj_s" 4 ["Frs1"; "Frs2"] ["Frd"] "RiscVFSgnj" "";
   mk_irow "fsgnjn_s" 4 ["Frs1"; "Frs2"] ["Frd"] "RiscVFSgnjn" "";
   mk_irow "fsgnjx_s" 4 ["Frs1"; "Frs2"] ["Frd"] "RiscVFSgnjx" "";
   mk_irow "fmv_xw" 4 ["Frs1"] ["Rd"] "RV64::RiscVFMvxw" "";
   mk_irow "fmv_wx" 4 ["Rs1"] ["Frd"] "RiscVFMvwx" "";
   mk_irow "fcmpeq_s" 4 ["Frs1"; "Frs2"] ["Rd"; "Fflags"] "RV64::RiscVFCmpeq" "";
   mk_irow "fcmplt_s" 4 ["Frs1"; "Frs2"] ["Rd"; "Fflags"] "RV64::RiscVFCmplt" "";
   mk_irow "fcmple_s" 4 ["Frs1"; "Frs2"] ["Rd"; "Fflags"] "RV64::RiscVFCmple" "";
   mk_irow "fclass_s" 4 ["Frs1"] ["Rd"] "RV64::RiscVFClass" "";
   mk_irow "fadd_d" 4 ["Drs1"; "Drs2"; "Rm"] ["Drd"] "RiscVDAdd" "";
   mk_irow "fsub_d" 4 ["Drs1"; "Drs2"; "Rm"] ["Drd"] "RiscVDSub" "";
   mk_irow "fmul_d" 4 ["Drs1"; "Drs2"; "Rm"] ["Drd"] "RiscVDMul" "";
   mk_irow "fdiv_d" 4 ["Drs1"; "Drs2"; "Rm"] ["Drd"] "RiscVDDiv" "";
   mk_irow "fsqrt_d" 4 ["Drs1"; "Rm"] ["Drd"; "Fflags"] "RiscVDSqrt" "";
   mk_irow "fmin_d" 4 ["Drs1"; "Drs2"] ["Drd"; "Fflags"] "RiscVDMin" "";
   mk_irow "fmax_d" 4 ["Drs1"; "Drs2"] ["Drd"; "Fflags"] "RiscVDMax" "";
   mk_irow "fmadd_d" 4 ["Drs1"; "Drs2"; "Drs3"; "Rm"] ["Drd"; "Fflags"] "RiscVDMadd" "";
   mk_irow "fmsub_d" 4 ["Drs1"; "Drs2"; "Drs3"; "Rm"] ["Drd"; "Fflags"] "RiscVDMsub" "";
   mk_irow "fnmadd_d" 4 ["Drs1"; "Drs2"; "Drs3"; "Rm"] ["Drd"; "Fflags"] "RiscVDNmadd" "";
   mk_irow "fnmsub_d" 4 ["Drs1"; "Drs2"; "Drs3"; "Rm"] ["Drd"; "Fflags"] "RiscVDNmsub" "";
   mk_irow "fcvt_wd" 4 ["Drs1"; "Rm"] ["Rd"; "Fflags"] "RV64::RiscVDCvtWd" "";
   mk_irow "fcvt_ld" 4 ["Drs1"; "Rm"] ["Rd"; "Fflags"] "RV64::RiscVDCvtLd" "";
   mk_irow "fcvt_dw" 4 ["Rs1"; "Rm"] ["Drd"] "RiscVDCvtDw" "";
   mk_irow "fcvt_dl" 4 ["Rs1"; "Rm"] ["Drd"] "RV64::RiscVDCvtDl" "";
   mk_irow "fcvt_wud" 4 ["Drs1"; "Rm"] ["Rd"; "Fflags"] "RV64::RiscVDCvtWud" "";
   mk_irow "fcvt_lud" 4 ["Drs1"; "Rm"] ["Rd"; "Fflags"] "RV64::RiscVDCvtLud" "";
   mk_irow "fcvt_dwu" 4 ["Rs1"; "Rm"] ["Drd"] "RiscVDCvtDwu" "";
   mk_irow "fcvt_dlu" 4 ["Rs1"; "Rm"] ["Drd"] "RV64::RiscVDCvtDlu" "";
   mk_irow "fcvt_sd" 4 ["Drs1"; "Rm"] ["Drd"] "RiscVDCvtSd" "";
   mk_irow "fcvt_ds" 4 ["Drs1"; "Rm"] ["Drd"] "RiscVDCvtDs" "";
   mk_irow "fsgnj_d" 4 ["Drs1"; "Drs2"] ["Drd"] "RiscVDSgnj" "";
   mk_irow "fsgnjn_d" 4 ["Drs1"; "Drs2"] ["Drd"] "RiscVDSgnjn" "";
   mk_irow "fsgnjx_d" 4 ["Drs1"; "Drs2"] ["Drd"] "RiscVDSgnjx" "";
   mk_irow "fcmpeq_d" 4 ["Drs1"; "Drs2"] ["Rd"; "Fflags"] "RV64::RiscVDCmpeq" "";
   mk_irow "fcmplt_d" 4 ["Drs1"; "Drs2"] ["Rd"; "Fflags"] "RV64::RiscVDCmplt" "";
   mk_irow "fcmple_d" 4 ["Drs1"; "Drs2"] ["Rd"; "Fflags"] "RV64::RiscVDCmple" "";
   mk_irow "fclass_d" 4 ["Drs1"] ["Rd"] "RV64::RiscVDClass" "";
   mk_irow "fmv_dx" 4 ["Rs1"] ["Frd"] "RV64::RiscVDMvdx" "";
   mk_irow "fmv_xd" 4 ["Frs1"] ["Rd"] "RV64::RiscVDMvxd" ""].

(** Model only: a semantic function, by what it computes; the number is the register width of its namespace (0: none). *)
Inductive fsem := FsF (aw : Z) (I : finst) | FsA (I : ainst).
(** riscv_f_instructions.cc:160-388, 405-451, 468-521, riscv_d_instructions.cc:63-361, 378-439, 456-543: the names of the
    semantic functions; what they compute is modelled in FpModel.v and FarithModel.v. *)
Definition fp_semfuncs : list (string * fsem) := [
   ("RiscVFAdd", FsA (AAdd single)); ("RiscVFSub", FsA (ASub single)); ("RiscVFMul", FsA (AMul single));
   ("RiscVFDiv", FsA (ADiv single)); ("RiscVFSqrt", FsA (ASqrt single));
   ("RiscVFMadd", FsA (AFma single false false)); ("RiscVFMsub", FsA (AFma single false true));
   ("RiscVFNmadd", FsA (AFma single true true)); ("RiscVFNmsub", FsA (AFma single true false));
   ("RiscVFMin", FsF 0 (FMin single)); ("RiscVFMax", FsF 0 (FMax single));
   ("RiscVFSgnj", FsF 0 (FSgnj single Copy)); ("RiscVFSgnjn", FsF 0 (FSgnj single Negate));
   ("RiscVFSgnjx", FsF 0 (FSgnj single FpSpec.Xor)); ("RV32::RiscVFCmpeq", FsF 32 (FEq single));
   ("RV32::RiscVFCmplt", FsF 32 (FLt single)); ("RV32::RiscVFCmple", FsF 32 (FLe single));
   ("RV32::RiscVFClass", FsF 32 (FClass single)); ("RV32::RiscVFCvtWs", FsF 32 (FCvtInt single true 32));
   ("RV32::RiscVFCvtWus", FsF 32 (FCvtInt single false 32)); ("RV64::RiscVFCmpeq", FsF 64 (FEq single));
   ("RV64::RiscVFCmplt", FsF 64 (FLt single)); ("RV64::RiscVFCmple", FsF 64 (FLe single));
   ("RV64::RiscVFClass", FsF 64 (FClass single)); ("RV64::RiscVFCvtWs", FsF 64 (FCvtInt single true 32));
   ("RV64::RiscVFCvtWus", FsF 64 (FCvtInt single false 32));
   ("RV64::RiscVFCvtLs", FsF 64 (FCvtInt single true 64));
   ("RV64::RiscVFCvtLus", FsF 64 (FCvtInt single false 64)); ("RiscVFCvtSw", FsA (AOfInt single true 32));
   ("RiscVFCvtSwu", FsA (AOfInt single false 32)); ("RiscVFCvtSl", FsA (AOfInt single true 64));
   ("RiscVFCvtSlu", FsA (AOfInt single false 64)); ("RiscVDAdd", FsA (AAdd double));
   ("RiscVDSub", FsA (ASub double)); ("RiscVDMul", FsA (AMul double)); ("RiscVDDiv", FsA (ADiv double));
   ("RiscVDSqrt", FsA (ASqrt double)); ("RiscVDMadd", FsA (AFma double false false));
   ("RiscVDMsub", FsA (AFma double false true)); ("RiscVDNmadd", FsA (AFma double true true));
   ("RiscVDNmsub", FsA (AFma double true false)); ("RiscVDMin", FsF 0 (FMin double));
   ("RiscVDMax", FsF 0 (FMax double)); ("RiscVDSgnj", FsF 0 (FSgnj double Copy));
   ("RiscVDSgnjn", FsF 0 (FSgnj double Negate)); ("RiscVDSgnjx", FsF 0 (FSgnj double FpSpec.Xor));
   ("RV32::RiscVDCmpeq", FsF 32 (FEq double)); ("RV32::RiscVDCmplt", FsF 32 (FLt double));
   ("RV32::RiscVDCmple", FsF 32 (FLe double)); ("RV32::RiscVDClass", FsF 32 (FClass double));
   ("RV32::RiscVDCvtWd", FsF 32 (FCvtInt double true 32));
   ("RV32::RiscVDCvtWud", FsF 32 (FCvtInt double false 32)); ("RV64::RiscVDCmpeq", FsF 64 (FEq double));
   ("RV64::RiscVDCmplt", FsF 64 (FLt double)); ("RV64::RiscVDCmple", FsF 64 (FLe double));
   ("RV64::RiscVDClass", FsF 64 (FClass double)); ("RV64::RiscVDCvtWd", FsF 64 (FCvtInt double true 32));
   ("RV64::RiscVDCvtWud", FsF 64 (FCvtInt double false 32));
   ("RV64::RiscVDCvtLd", FsF 64 (FCvtInt double true 64));
   ("RV64::RiscVDCvtLud", FsF 64 (FCvtInt double false 64)); ("RiscVDCvtDw", FsA (AOfInt double true 32));
   ("RiscVDCvtDwu", FsA (AOfInt double false 32)); ("RV64::RiscVDCvtDl", FsA (AOfInt double true 64));
   ("RV64::RiscVDCvtDlu", FsA (AOfInt double false 64)); ("RiscVDCvtSd", FsA (ANarrow double single));
   ("RiscVDCvtDs", FsF 0 (FWiden single double)); ("RV32::RiscVFMvxw", FsF 32 (FMvXF single));
   ("RV64::RiscVFMvxw", FsF 64 (FMvXF single)); ("RiscVFMvwx", FsF 0 (FMvFX single));
   ("RV64::RiscVDMvxd", FsF 64 (FMvXF double)); ("RV64::RiscVDMvdx", FsF 64 (FMvFX double))].

(** The sources only these instructions have: riscv32g_encoding.cc:188-222, 323-345, riscv64g_encoding.cc:210-244,
    336-358, riscv32g_vec_encoding.cc:360-395, 492-514, riscv64g_vec_encoding.cc:303-338, 429-451.  Rm is
    (inst_word >> 12) & 7, the func3 field of the R format. *)
Definition fp_getters : list (string * src) := [
   ("Frs1", SFreg f_RType "rs1"); ("Frs3", SFreg f_R4Type "rs3"); ("Drs1", SFreg f_RType "rs1");
   ("Drs3", SFreg f_R4Type "rs3"); ("Rm", SImm f_RType "func3" false)].
(** Model only: lookup in both tables. *)
Definition fp_src (S : simulator) (n : string) : option src :=
  match assoc fp_getters n with Some s => Some s | None => assoc (s_src S) n end.
(** Model only: the values of all sources, None if one has no getter. *)
Fixpoint fp_values (S : simulator) (h : hart) (iw : Z) (names : list string) : option (list Z) :=
  match names with
  | [] => Some []
  | n :: ns => match fp_src S n, fp_values S h iw ns with
               | Some s, Some l => Some (src_value h iw s :: l) | _, _ => None end
  end.

(** How the simulator was compiled: the host's arithmetic, whether fma on floats selects the double function, whether
    signed overflow wraps, FPTypeInfo<uint32_t>::kCanonicalNaN (riscv_instruction_helpers.h:294-297). *)
Record build := { b_host : host; b_wide : bool; b_wrapv : bool; b_canon : Z }.
(** The semantic function on its sources; [old]: the destination before.  riscv_f_instructions.cc and
    riscv_d_instructions.cc as listed above; a source a function reads and its row does not declare is an
    out-of-range vector access (None). *)
Definition run_sem (B : build) (dyn : option Z) (s : fsem) (vals : list Z) (old : Z) : option FpModel.outcome :=
  match s with
  | FsF aw J => semfunc (if b_wrapv B then Wrapv else Iso) (b_canon B) aw dyn J vals old
  | FsA J =>
      let run rm a b c := a_exec (b_host B) (b_wide B) dyn J rm a b c old in
      match J, vals with
      | (AAdd _ | ASub _ | AMul _ | ADiv _), [a; b; rm] => run rm a b 0
      | (ASqrt _ | ANarrow _ _ | AOfInt _ _ _), [a; rm] => run rm a 0 0
      | AFma _ _ _, [a; b; c; rm] => run rm a b c
      | _, _ => None
      end
  end.
(** The semantic function writes an x register. *)
Definition sem_x (s : fsem) : bool :=
  match s with FsF _ (FEq _ | FLt _ | FLe _ | FClass _ | FCvtInt _ _ _ | FMvXF _) => true | _ => false end.
(** It writes flags through Destination(1): riscv_f_instructions.cc:91-123 (sqrt, min, max), 188-322 (multiply-add,
    compare), riscv_d_instructions.cc:90-152, 183-272, 391-495, riscv_instruction_helpers.h:278 (to integer), 596.
    Simplified: taken to do so in every execution. *)
Definition sem_flags (s : fsem) : bool :=
  match s with
  | FsF _ (FMin _ | FMax _ | FEq _ | FLt _ | FLe _ | FCvtInt _ _ _) | FsA (ASqrt _ | AFma _ _ _) => true
  | _ => false end.
(** Destination(1) is the fflags operand: riscv32g_encoding.cc:474-481, riscv64g_encoding.cc:536-543,
    riscv32g_vec_encoding.cc:665, riscv64g_vec_encoding.cc:636 (a set-bits operand of the fflags CSR). *)
Definition flags_operand (ir : irow) : bool :=
  match nth_error (i_dst ir) 1 with Some n => String.eqb n "Fflags" | None => false end.

(** Model only: contents of the destination before. *)
Definition old_dst (h : hart) (iw : Z) (d : dst) : Z :=
  match d with DFreg fm fld => hf h (extract fm fld iw) | _ => old_x h iw d end.
(** The register write: x registers as in StepModel.v; riscv_instruction_helpers.h:505-540, 624-650 write f registers
    in place (mstatus.FS is not touched). *)
Definition write_dst (h : hart) (iw : Z) (x : bool) (d : dst) (v : Z) : option hart :=
  if x then write_x h iw d v
  else match d with DFreg fm fld => Some (set_f h (extract fm fld iw) v) | _ => None end.
(** Model only: the row of an opcode. *)
Definition fp_row (S : simulator) (o : string) : option irow :=
  find (fun r => String.eqb (i_name r) o) (if s_xlen S =? 32 then fp_isa_32 else fp_isa_64).
(** One instruction: the semantic function runs, flags raised accumulate in fflags (riscv_fp_host_x86.cc:272-288,
    riscv_csr.h set-bits destination; C33, C34), riscv_top.cc:333, 357-362 advances the pc.  An illegal dynamic rounding mode is
    only logged (riscv_instruction_helpers.h:498-503, 547-552, 580-585). *)
Definition fp_exec (B : build) (S : simulator) (h : fhart) (iw : Z) (o : string) : option foutcome :=
  match fp_row S o with
  | Some ir =>
      match assoc fp_semfuncs (i_sem ir), fp_values S (fh h) iw (i_src ir), get_dst S (i_dst ir) 0 with
      | Some s, Some vals, Some d =>
          let pc := hpc (fh h) + i_size ir in
          if sem_flags s && negb (flags_operand ir) then None else
          match run_sem B (h_frm h) s vals (old_dst (fh h) iw d) with
          | Some (Wrote v fl) =>
              match write_dst (fh h) iw (sem_x s) d v with
              | Some k => Some (FDone {| fh := set_pc (s_xlen S) k pc; h_frm := h_frm h; h_flags := Z.lor (h_flags h) fl |})
              | None => None
              end
          | Some Nothing => Some (FDone {| fh := set_pc (s_xlen S) (fh h) pc; h_frm := h_frm h; h_flags := h_flags h |})
          | None => None
          end
      | _, _, _ => None
      end
  | None => None
  end.
