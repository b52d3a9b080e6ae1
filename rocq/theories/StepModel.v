(** Model of one step of the instruction set simulators RV32/RV64 G, GV, GZB and GVZB for the integer
    computational instructions, control transfers, loads and stores (integer and floating point), hints
    and their compressed forms: the opcode and operand tables of the .isa files, the operand getters of
    the encoding classes, the semantic functions, and the pc update of RiscVTop::Step.

    Trusted: the meaning of the .isa tables (their generator belongs to mpact-sim): an opcode's instruction
    object gets, in order, the source and destination operands the table names, each made by the encoding's
    getter of that name, the semantic function the table names and the size of its slot; a parent with a
    child executes the child when the loaded data is delivered.  Latencies are 0 or 1 (riscv32g.isa:24, riscv64g.isa:34):
    Step advances the delay lines after each instruction, so writes are here done at once.  CSR, atomic,
    floating-point arithmetic, vector, system and privileged instructions are not in these tables. *)
From Coq Require Import ZArith List String Bool.
From Verif Require Import Bits FmtSpec FmtModel DecModel IntSpec IntModel Memory AccessSpec AccessModel StepSpec.
Import ListNotations.
Local Open Scope string_scope.
Local Open Scope Z_scope.

(** Model only: a source operand as a getter makes it: register named by a field of a format ([zero]: the
    getter returns the literal 0 for number 0), floating-point register, integer immediate (ImmediateOperand
    of int32_t or uint32_t), literal, fixed integer register. *)
Inductive src := SReg (fm : format) (fld : string) (zero : bool) | SFreg (fm : format) (fld : string)
  | SImm (fm : format) (fld : string) (int32 : bool) | SLit (n : Z) | SX (n : Z).
(** Model only: a destination operand ([zero]: the getter returns the dummy register X0Dest for number 0). *)
Inductive dst := DReg (fm : format) (fld : string) (zero : bool) | DFreg (fm : format) (fld : string)
  | DX (n : Z) | DX0 | DPc.
(** Model only: a row of an .isa file: opcode, size of the slot, sources, destinations, semantic functions of the
    instruction and of its child (empty: none). *)
Record irow := mk_irow { i_name : string; i_size : Z; i_src : list string; i_dst : list string;
  i_sem : string; i_child : string }.
(** Model only: the kinds of semantic functions; the number is the register width of the namespace (RV32, RV64). *)
Inductive sem := SemBin (aw : Z) (op : iop) | SemUn (aw : Z) (op : iop) | SemShAdd (aw : Z) | SemShAddUw (aw : Z)
  | SemUpper (aw : Z) (op : iop) | SemJal (aw : Z) | SemJalr (aw : Z) | SemBranch (aw : Z) (c : branch)
  | SemLoad (aw : Z) (n : nat) | SemLoadChild (aw : Z) (k : load_kind) | SemFlwChild
  | SemStore (aw : Z) (k : store_kind) | SemFstore (aw : Z) (k : store_kind) | SemNop.

(** The semantic functions: riscv_i_instructions.cc:64-345 (ALU, jal, jalr, nop), 600-612 (fences),
    riscv_zfencei_instructions.cc:24-27 (RiscVState::Fence and FenceI, riscv_state.cc:576-583, do nothing), 347-426 (branches), 429-583 (loads,
    stores), riscv_m_instructions.cc:33-241, riscv_bitmanip_instructions.cc:30-527, riscv_f_instructions.cc:141-157
    (RiscVIFlwChild), 390-403, 453-466 (RiscVFSw), riscv_d_instructions.cc:363-376, 441-454 (RiscVDSd); what the ALU
    functions compute is modelled in IntModel.v, the others in AccessModel.v. *)
Definition semfuncs : list (string * sem) := [
   ("RV32::MDiv", SemBin 32 Div); ("RV32::MDivu", SemBin 32 Divu); ("RV32::MMul", SemBin 32 Mul);
   ("RV32::MMulh", SemBin 32 Mulh); ("RV32::MMulhsu", SemBin 32 Mulhsu); ("RV32::MMulhu", SemBin 32 Mulhu);
   ("RV32::MRem", SemBin 32 Rem); ("RV32::MRemu", SemBin 32 Remu); ("RV32::RiscVAndn", SemBin 32 Andn);
   ("RV32::RiscVBclr", SemBin 32 Bclr); ("RV32::RiscVBext", SemBin 32 Bext);
   ("RV32::RiscVBinv", SemBin 32 Binv); ("RV32::RiscVBset", SemBin 32 Bset);
   ("RV32::RiscVClmul", SemBin 32 Clmul); ("RV32::RiscVClmulh", SemBin 32 Clmulh);
   ("RV32::RiscVClmulr", SemBin 32 Clmulr); ("RV32::RiscVClz", SemUn 32 Clz);
   ("RV32::RiscVCpop", SemUn 32 Cpop); ("RV32::RiscVCtz", SemUn 32 Ctz);
   ("RV32::RiscVDSd", SemFstore 32 Sd); ("RV32::RiscVFSw", SemFstore 32 Sw);
   ("RV32::RiscVIAdd", SemBin 32 Add); ("RV32::RiscVIAnd", SemBin 32 And);
   ("RV32::RiscVIAuipc", SemUpper 32 Auipc); ("RV32::RiscVIBeq", SemBranch 32 Beq);
   ("RV32::RiscVIBge", SemBranch 32 Bge); ("RV32::RiscVIBgeu", SemBranch 32 Bgeu);
   ("RV32::RiscVIBlt", SemBranch 32 Blt); ("RV32::RiscVIBltu", SemBranch 32 Bltu);
   ("RV32::RiscVIBne", SemBranch 32 Bne); ("RV32::RiscVIJal", SemJal 32); ("RV32::RiscVIJalr", SemJalr 32);
   ("RV32::RiscVILb", SemLoad 32 1); ("RV32::RiscVILbChild", SemLoadChild 32 Lb);
   ("RV32::RiscVILbu", SemLoad 32 1); ("RV32::RiscVILbuChild", SemLoadChild 32 Lbu);
   ("RV32::RiscVILd", SemLoad 32 8); ("RV32::RiscVILh", SemLoad 32 2);
   ("RV32::RiscVILhChild", SemLoadChild 32 Lh); ("RV32::RiscVILhu", SemLoad 32 2);
   ("RV32::RiscVILhuChild", SemLoadChild 32 Lhu); ("RV32::RiscVILui", SemUpper 32 Lui);
   ("RV32::RiscVILw", SemLoad 32 4); ("RV32::RiscVILwChild", SemLoadChild 32 Lw);
   ("RV32::RiscVIOr", SemBin 32 Or); ("RV32::RiscVISb", SemStore 32 Sb); ("RV32::RiscVISh", SemStore 32 Sh);
   ("RV32::RiscVISll", SemBin 32 Sll); ("RV32::RiscVISlt", SemBin 32 Slt);
   ("RV32::RiscVISltu", SemBin 32 Sltu); ("RV32::RiscVISra", SemBin 32 Sra);
   ("RV32::RiscVISrl", SemBin 32 Srl); ("RV32::RiscVISub", SemBin 32 Sub);
   ("RV32::RiscVISw", SemStore 32 Sw); ("RV32::RiscVIXor", SemBin 32 Xor);
   ("RV32::RiscVMax", SemBin 32 Max); ("RV32::RiscVMaxu", SemBin 32 Maxu);
   ("RV32::RiscVMin", SemBin 32 Min); ("RV32::RiscVMinu", SemBin 32 Minu);
   ("RV32::RiscVOrcb", SemUn 32 Orcb); ("RV32::RiscVOrn", SemBin 32 Orn);
   ("RV32::RiscVRev8", SemUn 32 Rev8); ("RV32::RiscVRol", SemBin 32 Rol); ("RV32::RiscVRor", SemBin 32 Ror);
   ("RV32::RiscVSextB", SemUn 32 SextB); ("RV32::RiscVSextH", SemUn 32 SextH);
   ("RV32::RiscVShAdd", SemShAdd 32); ("RV32::RiscVXnor", SemBin 32 Xnor);
   ("RV32::RiscVZextH", SemUn 32 ZextH); ("RV64::MDiv", SemBin 64 Div); ("RV64::MDivu", SemBin 64 Divu);
   ("RV64::MDivuw", SemBin 64 Divuw); ("RV64::MDivw", SemBin 64 Divw); ("RV64::MMul", SemBin 64 Mul);
   ("RV64::MMulh", SemBin 64 Mulh); ("RV64::MMulhsu", SemBin 64 Mulhsu); ("RV64::MMulhu", SemBin 64 Mulhu);
   ("RV64::MMulw", SemBin 64 Mulw); ("RV64::MRem", SemBin 64 Rem); ("RV64::MRemu", SemBin 64 Remu);
   ("RV64::MRemuw", SemBin 64 Remuw); ("RV64::MRemw", SemBin 64 Remw);
   ("RV64::RiscVAddUw", SemBin 64 AddUw); ("RV64::RiscVAndn", SemBin 64 Andn);
   ("RV64::RiscVBclr", SemBin 64 Bclr); ("RV64::RiscVBext", SemBin 64 Bext);
   ("RV64::RiscVBinv", SemBin 64 Binv); ("RV64::RiscVBset", SemBin 64 Bset);
   ("RV64::RiscVClmul", SemBin 64 Clmul); ("RV64::RiscVClmulh", SemBin 64 Clmulh);
   ("RV64::RiscVClmulr", SemBin 64 Clmulr); ("RV64::RiscVClz", SemUn 64 Clz);
   ("RV64::RiscVClzw", SemUn 64 Clzw); ("RV64::RiscVCpop", SemUn 64 Cpop);
   ("RV64::RiscVCpopw", SemUn 64 Cpopw); ("RV64::RiscVCtz", SemUn 64 Ctz);
   ("RV64::RiscVCtzw", SemUn 64 Ctzw); ("RV64::RiscVDSd", SemFstore 64 Sd);
   ("RV64::RiscVFSw", SemFstore 64 Sw); ("RV64::RiscVIAdd", SemBin 64 Add);
   ("RV64::RiscVIAddw", SemBin 64 Addw); ("RV64::RiscVIAnd", SemBin 64 And);
   ("RV64::RiscVIAuipc", SemUpper 64 Auipc); ("RV64::RiscVIBeq", SemBranch 64 Beq);
   ("RV64::RiscVIBge", SemBranch 64 Bge); ("RV64::RiscVIBgeu", SemBranch 64 Bgeu);
   ("RV64::RiscVIBlt", SemBranch 64 Blt); ("RV64::RiscVIBltu", SemBranch 64 Bltu);
   ("RV64::RiscVIBne", SemBranch 64 Bne); ("RV64::RiscVIJal", SemJal 64); ("RV64::RiscVIJalr", SemJalr 64);
   ("RV64::RiscVILb", SemLoad 64 1); ("RV64::RiscVILbChild", SemLoadChild 64 Lb);
   ("RV64::RiscVILbu", SemLoad 64 1); ("RV64::RiscVILbuChild", SemLoadChild 64 Lbu);
   ("RV64::RiscVILd", SemLoad 64 8); ("RV64::RiscVILdChild", SemLoadChild 64 Ld);
   ("RV64::RiscVILh", SemLoad 64 2); ("RV64::RiscVILhChild", SemLoadChild 64 Lh);
   ("RV64::RiscVILhu", SemLoad 64 2); ("RV64::RiscVILhuChild", SemLoadChild 64 Lhu);
   ("RV64::RiscVILui", SemUpper 64 Lui); ("RV64::RiscVILw", SemLoad 64 4);
   ("RV64::RiscVILwChild", SemLoadChild 64 Lw); ("RV64::RiscVILwuChild", SemLoadChild 64 Lwu);
   ("RV64::RiscVIOr", SemBin 64 Or); ("RV64::RiscVISb", SemStore 64 Sb); ("RV64::RiscVISd", SemStore 64 Sd);
   ("RV64::RiscVISh", SemStore 64 Sh); ("RV64::RiscVISll", SemBin 64 Sll);
   ("RV64::RiscVISllw", SemBin 64 Sllw); ("RV64::RiscVISlt", SemBin 64 Slt);
   ("RV64::RiscVISltu", SemBin 64 Sltu); ("RV64::RiscVISra", SemBin 64 Sra);
   ("RV64::RiscVISraw", SemBin 64 Sraw); ("RV64::RiscVISrl", SemBin 64 Srl);
   ("RV64::RiscVISrlw", SemBin 64 Srlw); ("RV64::RiscVISub", SemBin 64 Sub);
   ("RV64::RiscVISubw", SemBin 64 Subw); ("RV64::RiscVISw", SemStore 64 Sw);
   ("RV64::RiscVIXor", SemBin 64 Xor); ("RV64::RiscVMax", SemBin 64 Max);
   ("RV64::RiscVMaxu", SemBin 64 Maxu); ("RV64::RiscVMin", SemBin 64 Min);
   ("RV64::RiscVMinu", SemBin 64 Minu); ("RV64::RiscVOrcb", SemUn 64 Orcb);
   ("RV64::RiscVOrn", SemBin 64 Orn); ("RV64::RiscVRev8", SemUn 64 Rev8); ("RV64::RiscVRol", SemBin 64 Rol);
   ("RV64::RiscVRolw", SemBin 64 Rolw); ("RV64::RiscVRor", SemBin 64 Ror);
   ("RV64::RiscVRorw", SemBin 64 Rorw); ("RV64::RiscVSextB", SemUn 64 SextB);
   ("RV64::RiscVSextH", SemUn 64 SextH); ("RV64::RiscVShAdd", SemShAdd 64);
   ("RV64::RiscVShAddUw", SemShAddUw 64); ("RV64::RiscVSlliUw", SemBin 64 SlliUw);
   ("RV64::RiscVXnor", SemBin 64 Xnor); ("RV64::RiscVZextH", SemUn 64 ZextH); ("RiscVIFence", SemNop);
   ("RiscVIFenceTso", SemNop); ("RiscVIFlwChild", SemFlwChild); ("RiscVINop", SemNop);
   ("RiscVZFencei", SemNop)].

(** riscv32g_encoding.cc:116-389. *)
Definition src_32g : list (string * src) := [
   ("BImm12", SImm f_BType "b_imm" true); ("C3drs2", SFreg f_CS "cs_rs2"); ("C3frs2", SFreg f_CS "cs_rs2");
   ("C3rs1", SReg f_CS "cs_rs1" false); ("C3rs2", SReg f_CS "cs_rs2" false); ("Cdrs2", SFreg f_CR "rs2");
   ("Cfrs2", SFreg f_CR "rs2"); ("Crs1", SReg f_CR "rs1" false); ("Crs2", SReg f_CR "rs2" false);
   ("Drs2", SFreg f_RType "rs2"); ("Frs2", SFreg f_RType "rs2"); ("ICbImm8", SImm f_CB "bimm" true);
   ("ICiImm6", SImm f_CI "imm6" true); ("ICiImm612", SImm f_CI "imm18" true);
   ("ICiImm6x16", SImm f_CI "ci_imm10" true); ("ICiUimm6", SImm f_CI "uimm6" false);
   ("ICiUimm6x4", SImm f_CI "ci_imm_w" false); ("ICiUimm6x8", SImm f_CI "ci_imm_d" false);
   ("ICiwUimm8x4", SImm f_CIW "ciw_imm10" false); ("ICjImm11", SImm f_CJ "jimm" true);
   ("IClUimm5x4", SImm f_CL "cl_imm_w" false); ("IClUimm5x8", SImm f_CL "cl_imm_d" false);
   ("ICssUimm6x4", SImm f_CSS "css_imm_w" false); ("ICssUimm6x8", SImm f_CSS "css_imm_d" false);
   ("IImm12", SImm f_IType "imm12" true); ("IUimm5", SImm f_RType "r_uimm5" false);
   ("JImm12", SImm f_IType "imm12" true); ("JImm20", SImm f_JType "j_imm" true);
   ("Rd", SReg f_RType "rd" true); ("Rs1", SReg f_RType "rs1" true); ("Rs2", SReg f_RType "rs2" true);
   ("SImm12", SImm f_SType "s_imm" true); ("UImm20", SImm f_UType "u_imm" true); ("X0", SLit 0);
   ("X2", SX 2)].

(** riscv32g_encoding.cc:397-472. *)
Definition dst_32g : list (string * dst) := [
   ("C3drd", DFreg f_CL "cl_rd"); ("C3frd", DFreg f_CL "cl_rd"); ("C3rd", DReg f_CL "cl_rd" false);
   ("C3rs1", DReg f_CL "cl_rs1" false); ("Drd", DFreg f_RType "rd"); ("Frd", DFreg f_RType "rd");
   ("NextPc", DPc); ("Rd", DReg f_RType "rd" true); ("X0", DX0); ("X1", DX 1); ("X2", DX 2)].

(** riscv64g_encoding.cc:125-430. *)
Definition src_64g : list (string * src) := [
   ("BImm12", SImm f_BType "b_imm" true); ("C3drs2", SFreg f_CS "cs_rs2");
   ("C3rs1", SReg f_CS "cs_rs1" false); ("C3rs2", SReg f_CS "cs_rs2" false); ("Cdrs2", SFreg f_CR "rs2");
   ("Crs1", SReg f_CR "rs1" false); ("Crs2", SReg f_CR "rs2" false); ("Drs2", SFreg f_RType "rs2");
   ("Frs2", SFreg f_RType "rs2"); ("ICbImm8", SImm f_CB "bimm" true); ("ICiImm6", SImm f_CI "imm6" true);
   ("ICiImm612", SImm f_CI "imm18" true); ("ICiImm6x16", SImm f_CI "ci_imm10" true);
   ("ICiUimm6", SImm f_CI "uimm6" false); ("ICiUimm6x4", SImm f_CI "ci_imm_w" false);
   ("ICiUimm6x8", SImm f_CI "ci_imm_d" false); ("ICiwUimm8x4", SImm f_CIW "ciw_imm10" false);
   ("ICjImm11", SImm f_CJ "jimm" true); ("IClUimm5x4", SImm f_CL "cl_imm_w" false);
   ("IClUimm5x8", SImm f_CL "cl_imm_d" false); ("ICssUimm6x4", SImm f_CSS "css_imm_w" false);
   ("ICssUimm6x8", SImm f_CSS "css_imm_d" false); ("IImm12", SImm f_IType "imm12" true);
   ("IUimm5", SImm f_RType "r_uimm5" false); ("IUimm6", SImm f_RSType "r_uimm6" false);
   ("JImm12", SImm f_IType "imm12" true); ("JImm20", SImm f_JType "j_imm" true);
   ("Rd", SReg f_RType "rd" true); ("Rs1", SReg f_RType "rs1" true); ("Rs2", SReg f_RType "rs2" true);
   ("SImm12", SImm f_SType "s_imm" true); ("UImm20", SImm f_UType "u_imm" true); ("X0", SLit 0);
   ("X2", SX 2)].

(** riscv64g_encoding.cc:438-534. *)
Definition dst_64g : list (string * dst) := [
   ("C3drd", DReg f_CL "cl_rd" false); ("C3rd", DReg f_CL "cl_rd" false);
   ("C3rs1", DReg f_CL "cl_rs1" false); ("Drd", DFreg f_RType "rd"); ("Frd", DFreg f_RType "rd");
   ("NextPc", DPc); ("Rd", DReg f_RType "rd" true); ("X0", DX0); ("X1", DX 1); ("X2", DX 2)].

(** riscv32g_vec_encoding.cc:288-573. *)
Definition src_32gv : list (string * src) := [
   ("BImm12", SImm f_BType "b_imm" true); ("C3drs2", SFreg f_CS "cs_rs2"); ("C3frs2", SFreg f_CS "cs_rs2");
   ("C3rs1", SReg f_CS "cs_rs1" false); ("C3rs2", SReg f_CS "cs_rs2" false); ("Cdrs2", SFreg f_CR "rs2");
   ("Cfrs2", SFreg f_CR "rs2"); ("Crs1", SReg f_CR "rs1" false); ("Crs2", SReg f_CR "rs2" false);
   ("Drs2", SFreg f_RType "rs2"); ("Frs2", SFreg f_RType "rs2"); ("ICbImm8", SImm f_CB "bimm" true);
   ("ICiImm6", SImm f_CI "imm6" true); ("ICiImm612", SImm f_CI "imm18" true);
   ("ICiImm6x16", SImm f_CI "ci_imm10" true); ("ICiUimm6", SImm f_CI "uimm6" false);
   ("ICiUimm6x4", SImm f_CI "ci_imm_w" false); ("ICiUimm6x8", SImm f_CI "ci_imm_d" false);
   ("ICiwUimm8x4", SImm f_CIW "ciw_imm10" false); ("ICjImm11", SImm f_CJ "jimm" true);
   ("IClUimm5x4", SImm f_CL "cl_imm_w" false); ("IClUimm5x8", SImm f_CL "cl_imm_d" false);
   ("ICssUimm6x4", SImm f_CSS "css_imm_w" false); ("ICssUimm6x8", SImm f_CSS "css_imm_d" false);
   ("IImm12", SImm f_IType "imm12" true); ("IUimm5", SImm f_RType "r_uimm5" false);
   ("JImm12", SImm f_IType "imm12" true); ("JImm20", SImm f_JType "j_imm" true);
   ("Rd", SReg f_RType "rd" true); ("Rs1", SReg f_RType "rs1" true); ("Rs2", SReg f_RType "rs2" true);
   ("SImm12", SImm f_SType "s_imm" true); ("UImm20", SImm f_UType "u_imm" true); ("X0", SLit 0);
   ("X2", SX 2)].

(** riscv32g_vec_encoding.cc:581-663. *)
Definition dst_32gv : list (string * dst) := [
   ("C3drd", DReg f_CL "cl_rd" false); ("C3frd", DReg f_CL "cl_rd" false);
   ("C3rd", DReg f_CL "cl_rd" false); ("C3rs1", DReg f_CL "cl_rs1" false); ("Drd", DFreg f_RType "rd");
   ("Frd", DFreg f_RType "rd"); ("NextPc", DPc); ("Rd", DReg f_RType "rd" true); ("X0", DX0); ("X1", DX 1);
   ("X2", DX 2)].

(** riscv64g_vec_encoding.cc:218-524. *)
Definition src_64gv : list (string * src) := [
   ("BImm12", SImm f_BType "b_imm" true); ("C3drs2", SFreg f_CS "cs_rs2");
   ("C3rs1", SReg f_CS "cs_rs1" false); ("C3rs2", SReg f_CS "cs_rs2" false); ("Cdrs2", SFreg f_CR "rs2");
   ("Crs1", SReg f_CR "rs1" false); ("Crs2", SReg f_CR "rs2" false); ("Drs2", SFreg f_RType "rs2");
   ("Frs2", SFreg f_RType "rs2"); ("ICbImm8", SImm f_CB "bimm" true); ("ICiImm6", SImm f_CI "imm6" true);
   ("ICiImm612", SImm f_CI "imm18" true); ("ICiImm6x16", SImm f_CI "ci_imm10" true);
   ("ICiUimm6", SImm f_CI "uimm6" false); ("ICiUimm6x4", SImm f_CI "ci_imm_w" false);
   ("ICiUimm6x8", SImm f_CI "ci_imm_d" false); ("ICiwUimm8x4", SImm f_CIW "ciw_imm10" false);
   ("ICjImm11", SImm f_CJ "jimm" true); ("IClUimm5x4", SImm f_CL "cl_imm_w" false);
   ("IClUimm5x8", SImm f_CL "cl_imm_d" false); ("ICssUimm6x4", SImm f_CSS "css_imm_w" false);
   ("ICssUimm6x8", SImm f_CSS "css_imm_d" false); ("IImm12", SImm f_IType "imm12" true);
   ("IUimm5", SImm f_RType "r_uimm5" false); ("IUimm6", SImm f_RSType "r_uimm6" false);
   ("JImm12", SImm f_IType "imm12" true); ("JImm20", SImm f_JType "j_imm" true);
   ("Rd", SReg f_RType "rd" true); ("Rs1", SReg f_RType "rs1" true); ("Rs2", SReg f_RType "rs2" true);
   ("SImm12", SImm f_SType "s_imm" true); ("UImm20", SImm f_UType "u_imm" true); ("X0", SLit 0);
   ("X2", SX 2)].

(** riscv64g_vec_encoding.cc:538-634. *)
Definition dst_64gv : list (string * dst) := [
   ("C3drd", DReg f_CL "cl_rd" false); ("C3rd", DReg f_CL "cl_rd" false);
   ("C3rs1", DReg f_CL "cl_rs1" false); ("Drd", DFreg f_RType "rd"); ("Frd", DFreg f_RType "rd");
   ("NextPc", DPc); ("Rd", DReg f_RType "rd" true); ("X0", DX0); ("X1", DX 1); ("X2", DX 2)].

(** riscv_getters.h:71-294, riscv_getters_rv32.h:56-67, riscv_getters_zba.h:40-45, riscv_getters_zbb32.h:42-45. *)
Definition src_32gzb : list (string * src) := [
   ("BImm12", SImm f_BType "b_imm" true); ("C3drs2", SFreg f_CS "cs_rs2"); ("C3frs2", SFreg f_CS "cs_rs2");
   ("C3rs1", SReg f_CS "cs_rs1" false); ("C3rs2", SReg f_CS "cs_rs2" false); ("Cdrs2", SFreg f_CR "rs2");
   ("Cfrs2", SFreg f_CR "rs2"); ("Const1", SLit 1); ("Const2", SLit 2); ("Const3", SLit 3);
   ("Crs1", SReg f_CR "rs1" false); ("Crs2", SReg f_CR "rs2" false); ("Drs2", SFreg f_RType "rs2");
   ("Frs2", SFreg f_RType "rs2"); ("ICbImm8", SImm f_CB "bimm" true); ("ICiImm6", SImm f_CI "imm6" true);
   ("ICiImm612", SImm f_CI "imm18" true); ("ICiImm6x16", SImm f_CI "ci_imm10" true);
   ("ICiUimm6", SImm f_CI "uimm6" false); ("ICiUimm6x4", SImm f_CI "ci_imm_w" false);
   ("ICiUimm6x8", SImm f_CI "ci_imm_d" false); ("ICiwUimm8x4", SImm f_CIW "ciw_imm10" false);
   ("ICjImm11", SImm f_CJ "jimm" true); ("IClUimm5x4", SImm f_CL "cl_imm_w" false);
   ("IClUimm5x8", SImm f_CL "cl_imm_d" false); ("ICssUimm6x4", SImm f_CSS "css_imm_w" false);
   ("ICssUimm6x8", SImm f_CSS "css_imm_d" false); ("IImm12", SImm f_IType "imm12" true);
   ("IUimm5", SImm f_RType "r_uimm5" false); ("JImm12", SImm f_IType "imm12" true);
   ("JImm20", SImm f_JType "j_imm" true); ("RUimm5", SImm f_RType "r_uimm5" false);
   ("Rd", SReg f_RType "rd" true); ("Rs1", SReg f_RType "rs1" true); ("Rs2", SReg f_RType "rs2" true);
   ("SImm12", SImm f_SType "s_imm" true); ("UImm20", SImm f_UType "u_imm" true); ("X0", SLit 0);
   ("X2", SX 2)].

(** riscv_getters.h:307-374, riscv_getters_rv32.h:80-84. *)
Definition dst_32gzb : list (string * dst) := [
   ("C3drd", DFreg f_CL "cl_rd"); ("C3frd", DFreg f_CL "cl_rd"); ("C3rd", DReg f_CL "cl_rd" false);
   ("C3rs1", DReg f_CL "cl_rs1" false); ("Drd", DFreg f_RType "rd"); ("Frd", DFreg f_RType "rd");
   ("NextPc", DPc); ("Rd", DReg f_RType "rd" true); ("X0", DX0); ("X1", DX 1); ("X2", DX 2)].

(** riscv_getters.h:71-294, riscv_getters_zba.h:40-45, riscv_getters_rv64.h:52-55, riscv_getters_zbb64.h:42-45. *)
Definition src_64gzb : list (string * src) := [
   ("BImm12", SImm f_BType "b_imm" true); ("C3drs2", SFreg f_CS "cs_rs2");
   ("C3rs1", SReg f_CS "cs_rs1" false); ("C3rs2", SReg f_CS "cs_rs2" false); ("Cdrs2", SFreg f_CR "rs2");
   ("Const1", SLit 1); ("Const2", SLit 2); ("Const3", SLit 3); ("Crs1", SReg f_CR "rs1" false);
   ("Crs2", SReg f_CR "rs2" false); ("Drs2", SFreg f_RType "rs2"); ("Frs2", SFreg f_RType "rs2");
   ("ICbImm8", SImm f_CB "bimm" true); ("ICiImm6", SImm f_CI "imm6" true);
   ("ICiImm612", SImm f_CI "imm18" true); ("ICiImm6x16", SImm f_CI "ci_imm10" true);
   ("ICiUimm6", SImm f_CI "uimm6" false); ("ICiUimm6x4", SImm f_CI "ci_imm_w" false);
   ("ICiUimm6x8", SImm f_CI "ci_imm_d" false); ("ICiwUimm8x4", SImm f_CIW "ciw_imm10" false);
   ("ICjImm11", SImm f_CJ "jimm" true); ("IClUimm5x4", SImm f_CL "cl_imm_w" false);
   ("IClUimm5x8", SImm f_CL "cl_imm_d" false); ("ICssUimm6x4", SImm f_CSS "css_imm_w" false);
   ("ICssUimm6x8", SImm f_CSS "css_imm_d" false); ("IImm12", SImm f_IType "imm12" true);
   ("IUimm5", SImm f_RType "r_uimm5" false); ("IUimm6", SImm f_RSType "r_uimm6" false);
   ("JImm12", SImm f_IType "imm12" true); ("JImm20", SImm f_JType "j_imm" true);
   ("RUimm6", SImm f_RSType "r_uimm6" false); ("Rd", SReg f_RType "rd" true);
   ("Rs1", SReg f_RType "rs1" true); ("Rs2", SReg f_RType "rs2" true);
   ("SImm12", SImm f_SType "s_imm" true); ("UImm20", SImm f_UType "u_imm" true); ("X0", SLit 0);
   ("X2", SX 2)].

(** riscv_getters.h:307-374. *)
Definition dst_64gzb : list (string * dst) := [
   ("C3drd", DFreg f_CL "cl_rd"); ("C3rd", DReg f_CL "cl_rd" false); ("C3rs1", DReg f_CL "cl_rs1" false);
   ("Drd", DFreg f_RType "rd"); ("Frd", DFreg f_RType "rd"); ("NextPc", DPc);
   ("Rd", DReg f_RType "rd" true); ("X0", DX0); ("X1", DX 1); ("X2", DX 2)].

(** riscv32g.isa: riscv32i 32-222, riscv32_hints 226-369, riscv32m 428-469, flw/fsw 639-647, fld/fsd 755-762,
    riscv32c 863-1016, riscv32chints 1018-1044, zfencei 414-425.  ecall, ebreak and cunimp are left out *)
Definition isa_32 : list irow := [
   mk_irow "addi" 4 ["Rs1"; "IImm12"] ["Rd"] "RV32::RiscVIAdd" "";
   mk_irow "nop" 4 [] [] "RiscVINop" "";
   mk_irow "slti" 4 ["Rs1"; "IImm12"] ["Rd"] "RV32::RiscVISlt" "";
   mk_irow "sltiu" 4 ["Rs1"; "IImm12"] ["Rd"] "RV32::RiscVISltu" "";
   mk_irow "andi" 4 ["Rs1"; "IImm12"] ["Rd"] "RV32::RiscVIAnd" "";
   mk_irow "ori" 4 ["Rs1"; "IImm12"] ["Rd"] "RV32::RiscVIOr" "";
   mk_irow "xori" 4 ["Rs1"; "IImm12"] ["Rd"] "RV32::RiscVIXor" "";
   mk_irow "slli" 4 ["Rs1"; "IUimm5"] ["Rd"] "RV32::RiscVISll" "";
   mk_irow "srli" 4 ["Rs1"; "IUimm5"] ["Rd"] "RV32::RiscVISrl" "";
   mk_irow "srai" 4 ["Rs1"; "IUimm5"] ["Rd"] "RV32::RiscVISra" "";
   mk_irow "lui" 4 ["UImm20"] ["Rd"] "RV32::RiscVILui" "";
   mk_irow "auipc" 4 ["UImm20"] ["Rd"] "RV32::RiscVIAuipc" "";
   mk_irow "add" 4 ["Rs1"; "Rs2"] ["Rd"] "RV32::RiscVIAdd" "";
   mk_irow "slt" 4 ["Rs1"; "Rs2"] ["Rd"] "RV32::RiscVISlt" "";
   mk_irow "sltu" 4 ["Rs1"; "Rs2"] ["Rd"] "RV32::RiscVISltu" "";
   mk_irow "and" 4 ["Rs1"; "Rs2"] ["Rd"] "RV32::RiscVIAnd" "";
   mk_irow "or" 4 ["Rs1"; "Rs2"] ["Rd"] "RV32::RiscVIOr" "";
   mk_irow "xor" 4 ["Rs1"; "Rs2"] ["Rd"] "RV32::RiscVIXor" "";
   mk_irow "sll" 4 ["Rs1"; "Rs2"] ["Rd"] "RV32::RiscVISll" "";
   mk_irow "srl" 4 ["Rs1"; "Rs2"] ["Rd"] "RV32::RiscVISrl" "";
   mk_irow "sub" 4 ["Rs1"; "Rs2"] ["Rd"] "RV32::RiscVISub" "";
   mk_irow "sra" 4 ["Rs1"; "Rs2"] ["Rd"] "RV32::RiscVISra" "";
   mk_irow "hint" 4 [] [] "RiscVINop" "";
   mk_irow "jal" 4 ["JImm20"] ["NextPc"; "Rd"] "RV32::RiscVIJal" "";
   mk_irow "jalr" 4 ["Rs1"; "JImm12"] ["NextPc"; "Rd"] "RV32::RiscVIJalr" "";
   mk_irow "j" 4 ["JImm20"] ["NextPc"; "Rd"] "RV32::RiscVIJal" "";
   mk_irow "jr" 4 ["Rs1"; "JImm12"] ["NextPc"; "Rd"] "RV32::RiscVIJalr" "";
   mk_irow "beq" 4 ["Rs1"; "Rs2"; "BImm12"] ["NextPc"] "RV32::RiscVIBeq" "";
   mk_irow "bne" 4 ["Rs1"; "Rs2"; "BImm12"] ["NextPc"] "RV32::RiscVIBne" "";
   mk_irow "blt" 4 ["Rs1"; "Rs2"; "BImm12"] ["NextPc"] "RV32::RiscVIBlt" "";
   mk_irow "bltu" 4 ["Rs1"; "Rs2"; "BImm12"] ["NextPc"] "RV32::RiscVIBltu" "";
   mk_irow "bge" 4 ["Rs1"; "Rs2"; "BImm12"] ["NextPc"] "RV32::RiscVIBge" "";
   mk_irow "bgeu" 4 ["Rs1"; "Rs2"; "BImm12"] ["NextPc"] "RV32::RiscVIBgeu" "";
   mk_irow "lw" 4 ["Rs1"; "IImm12"] ["Rd"] "RV32::RiscVILw" "RV32::RiscVILwChild";
   mk_irow "lh" 4 ["Rs1"; "IImm12"] ["Rd"] "RV32::RiscVILh" "RV32::RiscVILhChild";
   mk_irow "lhu" 4 ["Rs1"; "IImm12"] ["Rd"] "RV32::RiscVILhu" "RV32::RiscVILhuChild";
   mk_irow "lb" 4 ["Rs1"; "IImm12"] ["Rd"] "RV32::RiscVILb" "RV32::RiscVILbChild";
   mk_irow "lbu" 4 ["Rs1"; "IImm12"] ["Rd"] "RV32::RiscVILbu" "RV32::RiscVILbuChild";
   mk_irow "sw" 4 ["Rs1"; "SImm12"; "Rs2"] [] "RV32::RiscVISw" "";
   mk_irow "sh" 4 ["Rs1"; "SImm12"; "Rs2"] [] "RV32::RiscVISh" "";
   mk_irow "sb" 4 ["Rs1"; "SImm12"; "Rs2"] [] "RV32::RiscVISb" "";
   mk_irow "fence" 4 [] [] "RiscVIFence" "";
   mk_irow "fence_tso" 4 [] [] "RiscVIFenceTso" "";
   mk_irow "addi_hint1" 4 [] [] "RiscVINop" "";
   mk_irow "addi_hint2" 4 [] [] "RiscVINop" "";
   mk_irow "slti_hint" 4 [] [] "RiscVINop" "";
   mk_irow "sltiu_hint" 4 [] [] "RiscVINop" "";
   mk_irow "andi_hint" 4 [] [] "RiscVINop" "";
   mk_irow "ori_hint" 4 [] [] "RiscVINop" "";
   mk_irow "xori_hint" 4 [] [] "RiscVINop" "";
   mk_irow "slli_semihost" 4 [] [] "RiscVINop" "";
   mk_irow "slli_hint1" 4 [] [] "RiscVINop" "";
   mk_irow "slli_hint2" 4 [] [] "RiscVINop" "";
   mk_irow "srli_hint" 4 [] [] "RiscVINop" "";
   mk_irow "srai_semihost" 4 [] [] "RiscVINop" "";
   mk_irow "srai_hint1" 4 [] [] "RiscVINop" "";
   mk_irow "srai_hint2" 4 [] [] "RiscVINop" "";
   mk_irow "lui_hint" 4 [] [] "RiscVINop" "";
   mk_irow "auipc_hint" 4 [] [] "RiscVINop" "";
   mk_irow "add_hint1" 4 [] [] "RiscVINop" "";
   mk_irow "add_hint2" 4 [] [] "RiscVINop" "";
   mk_irow "add_hint3" 4 [] [] "RiscVINop" "";
   mk_irow "and_hint" 4 [] [] "RiscVINop" "";
   mk_irow "or_hint" 4 [] [] "RiscVINop" "";
   mk_irow "xor_hint" 4 [] [] "RiscVINop" "";
   mk_irow "sll_hint" 4 [] [] "RiscVINop" "";
   mk_irow "srl_hint" 4 [] [] "RiscVINop" "";
   mk_irow "sub_hint" 4 [] [] "RiscVINop" "";
   mk_irow "sra_hint" 4 [] [] "RiscVINop" "";
   mk_irow "slt_hint" 4 [] [] "RiscVINop" "";
   mk_irow "sltu_hint" 4 [] [] "RiscVINop" "";
   mk_irow "fence_hint1" 4 [] [] "RiscVINop" "";
   mk_irow "fence_hint2" 4 [] [] "RiscVINop" "";
   mk_irow "fence_hint3" 4 [] [] "RiscVINop" "";
   mk_irow "fence_hint4" 4 [] [] "RiscVINop" "";
   mk_irow "fence_hint5" 4 [] [] "RiscVINop" "";
   mk_irow "fence_hint6" 4 [] [] "RiscVINop" "";
   mk_irow "fence_hint7" 4 [] [] "RiscVINop" "";
   mk_irow "mul" 4 ["Rs1"; "Rs2"] ["Rd"] "RV32::MMul" "";
   mk_irow "mulh" 4 ["Rs1"; "Rs2"] ["Rd"] "RV32::MMulh" "";
   mk_irow "mulhu" 4 ["Rs1"; "Rs2"] ["Rd"] "RV32::MMulhu" "";
   mk_irow "mulhsu" 4 ["Rs1"; "Rs2"] ["Rd"] "RV32::MMulhsu" "";
   mk_irow "div" 4 ["Rs1"; "Rs2"] ["Rd"] "RV32::MDiv" "";
   mk_irow "divu" 4 ["Rs1"; "Rs2"] ["Rd"] "RV32::MDivu" "";
   mk_irow "rem" 4 ["Rs1"; "Rs2"] ["Rd"] "RV32::MRem" "";
   mk_irow "remu" 4 ["Rs1"; "Rs2"] ["Rd"] "RV32::MRemu" "";
   mk_irow "flw" 4 ["Rs1"; "IImm12"] ["Frd"] "RV32::RiscVILw" "RiscVIFlwChild";
   mk_irow "fsw" 4 ["Rs1"; "SImm12"; "Frs2"] [] "RV32::RiscVFSw" "";
   mk_irow "fld" 4 ["Rs1"; "IImm12"] ["Drd"] "RV32::RiscVILd" "RV64::RiscVILdChild";
   mk_irow "fsd" 4 ["Rs1"; "SImm12"; "Drs2"] [] "RV32::RiscVDSd" "";
   mk_irow "clwsp" 2 ["X2"; "ICiUimm6x4"] ["Rd"] "RV32::RiscVILw" "RV32::RiscVILwChild";
   mk_irow "cflwsp" 2 ["X2"; "ICiUimm6x4"] ["Frd"] "RV32::RiscVILw" "RV32::RiscVILwChild";
   mk_irow "cfldsp" 2 ["X2"; "ICiUimm6x8"] ["Drd"] "RV64::RiscVILd" "RV64::RiscVILdChild";
   mk_irow "cswsp" 2 ["X2"; "ICssUimm6x4"; "Crs2"] [] "RV32::RiscVISw" "";
   mk_irow "cfswsp" 2 ["X2"; "ICssUimm6x4"; "Cfrs2"] [] "RV32::RiscVISw" "";
   mk_irow "cfsdsp" 2 ["X2"; "ICssUimm6x8"; "Cdrs2"] [] "RV64::RiscVISd" "";
   mk_irow "clw" 2 ["C3rs1"; "IClUimm5x4"] ["C3rd"] "RV32::RiscVILw" "RV32::RiscVILwChild";
   mk_irow "cflw" 2 ["C3rs1"; "IClUimm5x4"] ["C3frd"] "RV32::RiscVILw" "RV32::RiscVILwChild";
   mk_irow "cfld" 2 ["C3rs1"; "IClUimm5x8"] ["C3drd"] "RV64::RiscVILd" "RV64::RiscVILdChild";
   mk_irow "csw" 2 ["C3rs1"; "IClUimm5x4"; "C3rs2"] [] "RV32::RiscVISw" "";
   mk_irow "cfsw" 2 ["C3rs1"; "IClUimm5x4"; "C3frs2"] [] "RV32::RiscVISw" "";
   mk_irow "cfsd" 2 ["C3rs1"; "IClUimm5x8"; "C3drs2"] [] "RV32::RiscVDSd" "";
   mk_irow "cj" 2 ["ICjImm11"; "X0"] ["NextPc"; "X0"] "RV32::RiscVIJal" "";
   mk_irow "cjal" 2 ["ICjImm11"; "X0"] ["NextPc"; "X1"] "RV32::RiscVIJal" "";
   mk_irow "cjr" 2 ["Crs1"; "X0"] ["NextPc"; "X0"] "RV32::RiscVIJalr" "";
   mk_irow "cjalr" 2 ["Crs1"; "X0"] ["NextPc"; "X1"] "RV32::RiscVIJalr" "";
   mk_irow "cbeqz" 2 ["C3rs1"; "X0"; "ICbImm8"] ["NextPc"] "RV32::RiscVIBeq" "";
   mk_irow "cbnez" 2 ["C3rs1"; "X0"; "ICbImm8"] ["NextPc"] "RV32::RiscVIBne" "";
   mk_irow "cli" 2 ["X0"; "ICiImm6"] ["Rd"] "RV32::RiscVIAdd" "";
   mk_irow "clui" 2 ["ICiImm612"] ["Rd"] "RV32::RiscVILui" "";
   mk_irow "caddi" 2 ["Rd"; "ICiImm6"] ["Rd"] "RV32::RiscVIAdd" "";
   mk_irow "caddi16sp" 2 ["X2"; "ICiImm6x16"] ["X2"] "RV32::RiscVIAdd" "";
   mk_irow "caddi4spn" 2 ["X2"; "ICiwUimm8x4"] ["C3rd"] "RV32::RiscVIAdd" "";
   mk_irow "cslli" 2 ["Rd"; "ICiUimm6"] ["Rd"] "RV32::RiscVISll" "";
   mk_irow "csrli" 2 ["C3rs1"; "ICiUimm6"] ["C3rs1"] "RV32::RiscVISrl" "";
   mk_irow "csrai" 2 ["C3rs1"; "ICiUimm6"] ["C3rs1"] "RV32::RiscVISra" "";
   mk_irow "candi" 2 ["C3rs1"; "ICiImm6"] ["C3rs1"] "RV32::RiscVIAnd" "";
   mk_irow "cmv" 2 ["Crs2"; "X0"] ["Rd"] "RV32::RiscVIAdd" "";
   mk_irow "cadd" 2 ["Crs2"; "Rd"] ["Rd"] "RV32::RiscVIAdd" "";
   mk_irow "cand" 2 ["C3rs1"; "C3rs2"] ["C3rs1"] "RV32::RiscVIAnd" "";
   mk_irow "cor" 2 ["C3rs1"; "C3rs2"] ["C3rs1"] "RV32::RiscVIOr" "";
   mk_irow "cxor" 2 ["C3rs1"; "C3rs2"] ["C3rs1"] "RV32::RiscVIXor" "";
   mk_irow "csub" 2 ["C3rs1"; "C3rs2"] ["C3rs1"] "RV32::RiscVISub" "";
   mk_irow "cnop" 2 [] [] "RiscVINop" "";
   mk_irow "cnop_hint" 2 [] [] "RiscVINop" "";
   mk_irow "cli_hint" 2 [] [] "RiscVINop" "";
   mk_irow "clui_hint" 2 [] [] "RiscVINop" "";
   mk_irow "cmv_hint" 2 [] [] "RiscVINop" "";
   mk_irow "caddi_hint" 2 [] [] "RiscVINop" "";
   mk_irow "cslli_hint" 2 [] [] "RiscVINop" "";
   mk_irow "cadd_hint" 2 [] [] "RiscVINop" "";
   mk_irow "fencei" 4 [] [] "RiscVZFencei" ""].

(** riscv64g.isa: riscv64i 51-286, riscv64_hints 290-433, riscv64m 492-553, flw/fsw 775-782, fld/fsd 906-913,
    riscv64c 1038-1195, riscv64chints 1199-1225, zfencei 478-489.  ecall, ebreak and cunimp are left out *)
Definition isa_64 : list irow := [
   mk_irow "addi" 4 ["Rs1"; "IImm12"] ["Rd"] "RV64::RiscVIAdd" "";
   mk_irow "nop" 4 [] [] "RiscVINop" "";
   mk_irow "addiw" 4 ["Rs1"; "IImm12"] ["Rd"] "RV64::RiscVIAddw" "";
   mk_irow "slti" 4 ["Rs1"; "IImm12"] ["Rd"] "RV64::RiscVISlt" "";
   mk_irow "sltiu" 4 ["Rs1"; "IImm12"] ["Rd"] "RV64::RiscVISltu" "";
   mk_irow "andi" 4 ["Rs1"; "IImm12"] ["Rd"] "RV64::RiscVIAnd" "";
   mk_irow "ori" 4 ["Rs1"; "IImm12"] ["Rd"] "RV64::RiscVIOr" "";
   mk_irow "xori" 4 ["Rs1"; "IImm12"] ["Rd"] "RV64::RiscVIXor" "";
   mk_irow "slli" 4 ["Rs1"; "IUimm6"] ["Rd"] "RV64::RiscVISll" "";
   mk_irow "srli" 4 ["Rs1"; "IUimm6"] ["Rd"] "RV64::RiscVISrl" "";
   mk_irow "srai" 4 ["Rs1"; "IUimm6"] ["Rd"] "RV64::RiscVISra" "";
   mk_irow "slliw" 4 ["Rs1"; "IUimm5"] ["Rd"] "RV64::RiscVISllw" "";
   mk_irow "srliw" 4 ["Rs1"; "IUimm5"] ["Rd"] "RV64::RiscVISrlw" "";
   mk_irow "sraiw" 4 ["Rs1"; "IUimm5"] ["Rd"] "RV64::RiscVISraw" "";
   mk_irow "lui" 4 ["UImm20"] ["Rd"] "RV64::RiscVILui" "";
   mk_irow "auipc" 4 ["UImm20"] ["Rd"] "RV64::RiscVIAuipc" "";
   mk_irow "add" 4 ["Rs1"; "Rs2"] ["Rd"] "RV64::RiscVIAdd" "";
   mk_irow "addw" 4 ["Rs1"; "Rs2"] ["Rd"] "RV64::RiscVIAddw" "";
   mk_irow "slt" 4 ["Rs1"; "Rs2"] ["Rd"] "RV64::RiscVISlt" "";
   mk_irow "sltu" 4 ["Rs1"; "Rs2"] ["Rd"] "RV64::RiscVISltu" "";
   mk_irow "and" 4 ["Rs1"; "Rs2"] ["Rd"] "RV64::RiscVIAnd" "";
   mk_irow "or" 4 ["Rs1"; "Rs2"] ["Rd"] "RV64::RiscVIOr" "";
   mk_irow "xor" 4 ["Rs1"; "Rs2"] ["Rd"] "RV64::RiscVIXor" "";
   mk_irow "sll" 4 ["Rs1"; "Rs2"] ["Rd"] "RV64::RiscVISll" "";
   mk_irow "srl" 4 ["Rs1"; "Rs2"] ["Rd"] "RV64::RiscVISrl" "";
   mk_irow "sub" 4 ["Rs1"; "Rs2"] ["Rd"] "RV64::RiscVISub" "";
   mk_irow "sra" 4 ["Rs1"; "Rs2"] ["Rd"] "RV64::RiscVISra" "";
   mk_irow "sllw" 4 ["Rs1"; "Rs2"] ["Rd"] "RV64::RiscVISllw" "";
   mk_irow "srlw" 4 ["Rs1"; "Rs2"] ["Rd"] "RV64::RiscVISrlw" "";
   mk_irow "subw" 4 ["Rs1"; "Rs2"] ["Rd"] "RV64::RiscVISubw" "";
   mk_irow "sraw" 4 ["Rs1"; "Rs2"] ["Rd"] "RV64::RiscVISraw" "";
   mk_irow "hint" 4 [] [] "RiscVINop" "";
   mk_irow "jal" 4 ["JImm20"] ["NextPc"; "Rd"] "RV64::RiscVIJal" "";
   mk_irow "jalr" 4 ["Rs1"; "JImm12"] ["NextPc"; "Rd"] "RV64::RiscVIJalr" "";
   mk_irow "j" 4 ["JImm20"] ["NextPc"; "Rd"] "RV64::RiscVIJal" "";
   mk_irow "jr" 4 ["Rs1"; "JImm12"] ["NextPc"; "Rd"] "RV64::RiscVIJalr" "";
   mk_irow "beq" 4 ["Rs1"; "Rs2"; "BImm12"] ["NextPc"] "RV64::RiscVIBeq" "";
   mk_irow "bne" 4 ["Rs1"; "Rs2"; "BImm12"] ["NextPc"] "RV64::RiscVIBne" "";
   mk_irow "blt" 4 ["Rs1"; "Rs2"; "BImm12"] ["NextPc"] "RV64::RiscVIBlt" "";
   mk_irow "bltu" 4 ["Rs1"; "Rs2"; "BImm12"] ["NextPc"] "RV64::RiscVIBltu" "";
   mk_irow "bge" 4 ["Rs1"; "Rs2"; "BImm12"] ["NextPc"] "RV64::RiscVIBge" "";
   mk_irow "bgeu" 4 ["Rs1"; "Rs2"; "BImm12"] ["NextPc"] "RV64::RiscVIBgeu" "";
   mk_irow "ld" 4 ["Rs1"; "IImm12"] ["Rd"] "RV64::RiscVILd" "RV64::RiscVILdChild";
   mk_irow "lw" 4 ["Rs1"; "IImm12"] ["Rd"] "RV64::RiscVILw" "RV64::RiscVILwChild";
   mk_irow "lwu" 4 ["Rs1"; "IImm12"] ["Rd"] "RV64::RiscVILw" "RV64::RiscVILwuChild";
   mk_irow "lh" 4 ["Rs1"; "IImm12"] ["Rd"] "RV64::RiscVILh" "RV64::RiscVILhChild";
   mk_irow "lhu" 4 ["Rs1"; "IImm12"] ["Rd"] "RV64::RiscVILhu" "RV64::RiscVILhuChild";
   mk_irow "lb" 4 ["Rs1"; "IImm12"] ["Rd"] "RV64::RiscVILb" "RV64::RiscVILbChild";
   mk_irow "lbu" 4 ["Rs1"; "IImm12"] ["Rd"] "RV64::RiscVILbu" "RV64::RiscVILbuChild";
   mk_irow "sd" 4 ["Rs1"; "SImm12"; "Rs2"] [] "RV64::RiscVISd" "";
   mk_irow "sw" 4 ["Rs1"; "SImm12"; "Rs2"] [] "RV64::RiscVISw" "";
   mk_irow "sh" 4 ["Rs1"; "SImm12"; "Rs2"] [] "RV64::RiscVISh" "";
   mk_irow "sb" 4 ["Rs1"; "SImm12"; "Rs2"] [] "RV64::RiscVISb" "";
   mk_irow "fence" 4 [] [] "RiscVIFence" "";
   mk_irow "fence_tso" 4 [] [] "RiscVIFenceTso" "";
   mk_irow "addi_hint1" 4 [] [] "RiscVINop" "";
   mk_irow "addi_hint2" 4 [] [] "RiscVINop" "";
   mk_irow "slti_hint" 4 [] [] "RiscVINop" "";
   mk_irow "sltiu_hint" 4 [] [] "RiscVINop" "";
   mk_irow "andi_hint" 4 [] [] "RiscVINop" "";
   mk_irow "ori_hint" 4 [] [] "RiscVINop" "";
   mk_irow "xori_hint" 4 [] [] "RiscVINop" "";
   mk_irow "slli_semihost" 4 [] [] "RiscVINop" "";
   mk_irow "slli_hint1" 4 [] [] "RiscVINop" "";
   mk_irow "slli_hint2" 4 [] [] "RiscVINop" "";
   mk_irow "srli_hint" 4 [] [] "RiscVINop" "";
   mk_irow "srai_semihost" 4 [] [] "RiscVINop" "";
   mk_irow "srai_hint1" 4 [] [] "RiscVINop" "";
   mk_irow "srai_hint2" 4 [] [] "RiscVINop" "";
   mk_irow "lui_hint" 4 [] [] "RiscVINop" "";
   mk_irow "auipc_hint" 4 [] [] "RiscVINop" "";
   mk_irow "add_hint1" 4 [] [] "RiscVINop" "";
   mk_irow "add_hint2" 4 [] [] "RiscVINop" "";
   mk_irow "add_hint3" 4 [] [] "RiscVINop" "";
   mk_irow "and_hint" 4 [] [] "RiscVINop" "";
   mk_irow "or_hint" 4 [] [] "RiscVINop" "";
   mk_irow "xor_hint" 4 [] [] "RiscVINop" "";
   mk_irow "sll_hint" 4 [] [] "RiscVINop" "";
   mk_irow "srl_hint" 4 [] [] "RiscVINop" "";
   mk_irow "sub_hint" 4 [] [] "RiscVINop" "";
   mk_irow "sra_hint" 4 [] [] "RiscVINop" "";
   mk_irow "slt_hint" 4 [] [] "RiscVINop" "";
   mk_irow "sltu_hint" 4 [] [] "RiscVINop" "";
   mk_irow "fence_hint1" 4 [] [] "RiscVINop" "";
   mk_irow "fence_hint2" 4 [] [] "RiscVINop" "";
   mk_irow "fence_hint3" 4 [] [] "RiscVINop" "";
   mk_irow "fence_hint4" 4 [] [] "RiscVINop" "";
   mk_irow "fence_hint5" 4 [] [] "RiscVINop" "";
   mk_irow "fence_hint6" 4 [] [] "RiscVINop" "";
   mk_irow "fence_hint7" 4 [] [] "RiscVINop" "";
   mk_irow "mul" 4 ["Rs1"; "Rs2"] ["Rd"] "RV64::MMul" "";
   mk_irow "mulw" 4 ["Rs1"; "Rs2"] ["Rd"] "RV64::MMulw" "";
   mk_irow "mulh" 4 ["Rs1"; "Rs2"] ["Rd"] "RV64::MMulh" "";
   mk_irow "mulhu" 4 ["Rs1"; "Rs2"] ["Rd"] "RV64::MMulhu" "";
   mk_irow "mulhsu" 4 ["Rs1"; "Rs2"] ["Rd"] "RV64::MMulhsu" "";
   mk_irow "div" 4 ["Rs1"; "Rs2"] ["Rd"] "RV64::MDiv" "";
   mk_irow "divu" 4 ["Rs1"; "Rs2"] ["Rd"] "RV64::MDivu" "";
   mk_irow "rem" 4 ["Rs1"; "Rs2"] ["Rd"] "RV64::MRem" "";
   mk_irow "remu" 4 ["Rs1"; "Rs2"] ["Rd"] "RV64::MRemu" "";
   mk_irow "divw" 4 ["Rs1"; "Rs2"] ["Rd"] "RV64::MDivw" "";
   mk_irow "divuw" 4 ["Rs1"; "Rs2"] ["Rd"] "RV64::MDivuw" "";
   mk_irow "remw" 4 ["Rs1"; "Rs2"] ["Rd"] "RV64::MRemw" "";
   mk_irow "remuw" 4 ["Rs1"; "Rs2"] ["Rd"] "RV64::MRemuw" "";
   mk_irow "flw" 4 ["Rs1"; "IImm12"] ["Frd"] "RV64::RiscVILw" "RiscVIFlwChild";
   mk_irow "fsw" 4 ["Rs1"; "SImm12"; "Frs2"] [] "RV64::RiscVFSw" "";
   mk_irow "fld" 4 ["Rs1"; "IImm12"] ["Drd"] "RV64::RiscVILd" "RV64::RiscVILdChild";
   mk_irow "fsd" 4 ["Rs1"; "SImm12"; "Drs2"] [] "RV64::RiscVDSd" "";
   mk_irow "clwsp" 2 ["X2"; "ICiUimm6x4"] ["Rd"] "RV64::RiscVILw" "RV64::RiscVILwChild";
   mk_irow "cldsp" 2 ["X2"; "ICiUimm6x8"] ["Rd"] "RV64::RiscVILd" "RV64::RiscVILdChild";
   mk_irow "cfldsp" 2 ["X2"; "ICiUimm6x8"] ["Drd"] "RV64::RiscVILd" "RV64::RiscVILdChild";
   mk_irow "cswsp" 2 ["X2"; "ICssUimm6x4"; "Crs2"] [] "RV64::RiscVISw" "";
   mk_irow "csdsp" 2 ["X2"; "ICssUimm6x8"; "Crs2"] [] "RV64::RiscVISd" "";
   mk_irow "cfsdsp" 2 ["X2"; "ICssUimm6x8"; "Cdrs2"] [] "RV64::RiscVISd" "";
   mk_irow "clw" 2 ["C3rs1"; "IClUimm5x4"] ["C3rd"] "RV64::RiscVILw" "RV64::RiscVILwChild";
   mk_irow "cld" 2 ["C3rs1"; "IClUimm5x8"] ["C3rd"] "RV64::RiscVILd" "RV64::RiscVILdChild";
   mk_irow "cfld" 2 ["C3rs1"; "IClUimm5x8"] ["C3drd"] "RV64::RiscVILd" "RV64::RiscVILdChild";
   mk_irow "csw" 2 ["C3rs1"; "IClUimm5x4"; "C3rs2"] [] "RV64::RiscVISw" "";
   mk_irow "csd" 2 ["C3rs1"; "IClUimm5x8"; "C3rs2"] [] "RV64::RiscVISd" "";
   mk_irow "cfsd" 2 ["C3rs1"; "IClUimm5x8"; "C3drs2"] [] "RV64::RiscVISd" "";
   mk_irow "cj" 2 ["ICjImm11"; "X0"] ["NextPc"; "X0"] "RV64::RiscVIJal" "";
   mk_irow "cjr" 2 ["Crs1"; "X0"] ["NextPc"; "X0"] "RV64::RiscVIJalr" "";
   mk_irow "cjalr" 2 ["Crs1"; "X0"] ["NextPc"; "X1"] "RV64::RiscVIJalr" "";
   mk_irow "cbeqz" 2 ["C3rs1"; "X0"; "ICbImm8"] ["NextPc"] "RV64::RiscVIBeq" "";
   mk_irow "cbnez" 2 ["C3rs1"; "X0"; "ICbImm8"] ["NextPc"] "RV64::RiscVIBne" "";
   mk_irow "cli" 2 ["X0"; "ICiImm6"] ["Rd"] "RV64::RiscVIAdd" "";
   mk_irow "clui" 2 ["ICiImm612"] ["Rd"] "RV64::RiscVILui" "";
   mk_irow "caddi" 2 ["Rd"; "ICiImm6"] ["Rd"] "RV64::RiscVIAdd" "";
   mk_irow "caddiw" 2 ["Rd"; "ICiImm6"] ["Rd"] "RV64::RiscVIAddw" "";
   mk_irow "caddi16sp" 2 ["X2"; "ICiImm6x16"] ["X2"] "RV64::RiscVIAdd" "";
   mk_irow "caddi4spn" 2 ["X2"; "ICiwUimm8x4"] ["C3rd"] "RV64::RiscVIAdd" "";
   mk_irow "cslli" 2 ["Rd"; "ICiUimm6"] ["Rd"] "RV64::RiscVISll" "";
   mk_irow "csrli" 2 ["C3rs1"; "ICiUimm6"] ["C3rs1"] "RV64::RiscVISrl" "";
   mk_irow "csrai" 2 ["C3rs1"; "ICiUimm6"] ["C3rs1"] "RV64::RiscVISra" "";
   mk_irow "candi" 2 ["C3rs1"; "ICiImm6"] ["C3rs1"] "RV64::RiscVIAnd" "";
   mk_irow "cmv" 2 ["Crs2"; "X0"] ["Rd"] "RV64::RiscVIAdd" "";
   mk_irow "cadd" 2 ["Crs2"; "Rd"] ["Rd"] "RV64::RiscVIAdd" "";
   mk_irow "cand" 2 ["C3rs1"; "C3rs2"] ["C3rs1"] "RV64::RiscVIAnd" "";
   mk_irow "cor" 2 ["C3rs1"; "C3rs2"] ["C3rs1"] "RV64::RiscVIOr" "";
   mk_irow "cxor" 2 ["C3rs1"; "C3rs2"] ["C3rs1"] "RV64::RiscVIXor" "";
   mk_irow "csub" 2 ["C3rs1"; "C3rs2"] ["C3rs1"] "RV64::RiscVISub" "";
   mk_irow "caddw" 2 ["C3rs1"; "C3rs2"] ["C3rs1"] "RV64::RiscVIAddw" "";
   mk_irow "csubw" 2 ["C3rs1"; "C3rs2"] ["C3rs1"] "RV64::RiscVISubw" "";
   mk_irow "cnop" 2 [] [] "RiscVINop" "";
   mk_irow "cnop_hint" 2 [] [] "RiscVINop" "";
   mk_irow "cli_hint" 2 [] [] "RiscVINop" "";
   mk_irow "clui_hint" 2 [] [] "RiscVINop" "";
   mk_irow "cmv_hint" 2 [] [] "RiscVINop" "";
   mk_irow "caddi_hint" 2 [] [] "RiscVINop" "";
   mk_irow "cslli_hint" 2 [] [] "RiscVINop" "";
   mk_irow "cadd_hint" 2 [] [] "RiscVINop" "";
   mk_irow "fencei" 4 [] [] "RiscVZFencei" ""].

(** riscv32zb.isa: riscv32_zba 34-51, riscv32_zbb 53-135, riscv32_zbb_imm 137-147, riscv32_zbc 149-167, riscv32_zbs 169-192, riscv32_zbs_imm 194-216 *)
Definition isa_zb32 : list irow := [
   mk_irow "sh1add" 4 ["Rs1"; "Rs2"; "Const1"] ["Rd"] "RV32::RiscVShAdd" "";
   mk_irow "sh2add" 4 ["Rs1"; "Rs2"; "Const2"] ["Rd"] "RV32::RiscVShAdd" "";
   mk_irow "sh3add" 4 ["Rs1"; "Rs2"; "Const3"] ["Rd"] "RV32::RiscVShAdd" "";
   mk_irow "andn" 4 ["Rs1"; "Rs2"] ["Rd"] "RV32::RiscVAndn" "";
   mk_irow "orn" 4 ["Rs1"; "Rs2"] ["Rd"] "RV32::RiscVOrn" "";
   mk_irow "xnor" 4 ["Rs1"; "Rs2"] ["Rd"] "RV32::RiscVXnor" "";
   mk_irow "clz" 4 ["Rs1"] ["Rd"] "RV32::RiscVClz" "";
   mk_irow "ctz" 4 ["Rs1"] ["Rd"] "RV32::RiscVCtz" "";
   mk_irow "cpop" 4 ["Rs1"] ["Rd"] "RV32::RiscVCpop" "";
   mk_irow "max" 4 ["Rs1"; "Rs2"] ["Rd"] "RV32::RiscVMax" "";
   mk_irow "maxu" 4 ["Rs1"; "Rs2"] ["Rd"] "RV32::RiscVMaxu" "";
   mk_irow "min" 4 ["Rs1"; "Rs2"] ["Rd"] "RV32::RiscVMin" "";
   mk_irow "minu" 4 ["Rs1"; "Rs2"] ["Rd"] "RV32::RiscVMinu" "";
   mk_irow "sext_b" 4 ["Rs1"] ["Rd"] "RV32::RiscVSextB" "";
   mk_irow "sext_h" 4 ["Rs1"] ["Rd"] "RV32::RiscVSextH" "";
   mk_irow "zext_h" 4 ["Rs1"] ["Rd"] "RV32::RiscVZextH" "";
   mk_irow "rol" 4 ["Rs1"; "Rs2"] ["Rd"] "RV32::RiscVRol" "";
   mk_irow "ror" 4 ["Rs1"; "Rs2"] ["Rd"] "RV32::RiscVRor" "";
   mk_irow "orcb" 4 ["Rs1"] ["Rd"] "RV32::RiscVOrcb" "";
   mk_irow "rev8" 4 ["Rs1"] ["Rd"] "RV32::RiscVRev8" "";
   mk_irow "rori" 4 ["Rs1"; "RUimm5"] ["Rd"] "RV32::RiscVRor" "";
   mk_irow "clmul" 4 ["Rs1"; "Rs2"] ["Rd"] "RV32::RiscVClmul" "";
   mk_irow "clmulh" 4 ["Rs1"; "Rs2"] ["Rd"] "RV32::RiscVClmulh" "";
   mk_irow "clmulr" 4 ["Rs1"; "Rs2"] ["Rd"] "RV32::RiscVClmulr" "";
   mk_irow "bclr" 4 ["Rs1"; "Rs2"] ["Rd"] "RV32::RiscVBclr" "";
   mk_irow "bext" 4 ["Rs1"; "Rs2"] ["Rd"] "RV32::RiscVBext" "";
   mk_irow "binv" 4 ["Rs1"; "Rs2"] ["Rd"] "RV32::RiscVBinv" "";
   mk_irow "bset" 4 ["Rs1"; "Rs2"] ["Rd"] "RV32::RiscVBset" "";
   mk_irow "bclri" 4 ["Rs1"; "RUimm5"] ["Rd"] "RV32::RiscVBclr" "";
   mk_irow "bexti" 4 ["Rs1"; "RUimm5"] ["Rd"] "RV32::RiscVBext" "";
   mk_irow "binvi" 4 ["Rs1"; "RUimm5"] ["Rd"] "RV32::RiscVBinv" "";
   mk_irow "bseti" 4 ["Rs1"; "RUimm5"] ["Rd"] "RV32::RiscVBset" ""].

(** riscv64zb.isa: riscv64_zba 35-68, riscv64_zbb 70-129, riscv64_zbb_imm 131-144, riscv64_zbc 146-158, riscv64_zbs 160-173, riscv64_zbs_imm 175-200;
    the rows marked override take their operands from riscv32zb.isa *)
Definition isa_zb64 : list irow := [
   mk_irow "sh1add" 4 ["Rs1"; "Rs2"; "Const1"] ["Rd"] "RV64::RiscVShAdd" "";
   mk_irow "sh2add" 4 ["Rs1"; "Rs2"; "Const2"] ["Rd"] "RV64::RiscVShAdd" "";
   mk_irow "sh3add" 4 ["Rs1"; "Rs2"; "Const3"] ["Rd"] "RV64::RiscVShAdd" "";
   mk_irow "add_uw" 4 ["Rs1"; "Rs2"] ["Rd"] "RV64::RiscVAddUw" "";
   mk_irow "sh1add_uw" 4 ["Rs1"; "Rs2"; "Const1"] ["Rd"] "RV64::RiscVShAddUw" "";
   mk_irow "sh2add_uw" 4 ["Rs1"; "Rs2"; "Const2"] ["Rd"] "RV64::RiscVShAddUw" "";
   mk_irow "sh3add_uw" 4 ["Rs1"; "Rs2"; "Const3"] ["Rd"] "RV64::RiscVShAddUw" "";
   mk_irow "slli_uw" 4 ["Rs1"; "RUimm6"] ["Rd"] "RV64::RiscVSlliUw" "";
   mk_irow "andn" 4 ["Rs1"; "Rs2"] ["Rd"] "RV64::RiscVAndn" "";
   mk_irow "orn" 4 ["Rs1"; "Rs2"] ["Rd"] "RV64::RiscVOrn" "";
   mk_irow "xnor" 4 ["Rs1"; "Rs2"] ["Rd"] "RV64::RiscVXnor" "";
   mk_irow "clz" 4 ["Rs1"] ["Rd"] "RV64::RiscVClz" "";
   mk_irow "ctz" 4 ["Rs1"] ["Rd"] "RV64::RiscVCtz" "";
   mk_irow "cpop" 4 ["Rs1"] ["Rd"] "RV64::RiscVCpop" "";
   mk_irow "max" 4 ["Rs1"; "Rs2"] ["Rd"] "RV64::RiscVMax" "";
   mk_irow "maxu" 4 ["Rs1"; "Rs2"] ["Rd"] "RV64::RiscVMaxu" "";
   mk_irow "min" 4 ["Rs1"; "Rs2"] ["Rd"] "RV64::RiscVMin" "";
   mk_irow "minu" 4 ["Rs1"; "Rs2"] ["Rd"] "RV64::RiscVMinu" "";
   mk_irow "sext_b" 4 ["Rs1"] ["Rd"] "RV64::RiscVSextB" "";
   mk_irow "sext_h" 4 ["Rs1"] ["Rd"] "RV64::RiscVSextH" "";
   mk_irow "zext_h" 4 ["Rs1"] ["Rd"] "RV64::RiscVZextH" "";
   mk_irow "rol" 4 ["Rs1"; "Rs2"] ["Rd"] "RV64::RiscVRol" "";
   mk_irow "ror" 4 ["Rs1"; "Rs2"] ["Rd"] "RV64::RiscVRor" "";
   mk_irow "orcb" 4 ["Rs1"] ["Rd"] "RV64::RiscVOrcb" "";
   mk_irow "rev8" 4 ["Rs1"] ["Rd"] "RV64::RiscVRev8" "";
   mk_irow "clzw" 4 ["Rs1"] ["Rd"] "RV64::RiscVClzw" "";
   mk_irow "ctzw" 4 ["Rs1"] ["Rd"] "RV64::RiscVCtzw" "";
   mk_irow "cpopw" 4 ["Rs1"] ["Rd"] "RV64::RiscVCpopw" "";
   mk_irow "rolw" 4 ["Rs1"; "Rs2"] ["Rd"] "RV64::RiscVRolw" "";
   mk_irow "roriw" 4 ["Rs1"; "RUimm6"] ["Rd"] "RV64::RiscVRorw" "";
   mk_irow "rorw" 4 ["Rs1"; "Rs2"] ["Rd"] "RV64::RiscVRorw" "";
   mk_irow "rori" 4 ["Rs1"; "RUimm6"] ["Rd"] "RV64::RiscVRor" "";
   mk_irow "clmul" 4 ["Rs1"; "Rs2"] ["Rd"] "RV64::RiscVClmul" "";
   mk_irow "clmulh" 4 ["Rs1"; "Rs2"] ["Rd"] "RV64::RiscVClmulh" "";
   mk_irow "clmulr" 4 ["Rs1"; "Rs2"] ["Rd"] "RV64::RiscVClmulr" "";
   mk_irow "bclr" 4 ["Rs1"; "Rs2"] ["Rd"] "RV64::RiscVBclr" "";
   mk_irow "bext" 4 ["Rs1"; "Rs2"] ["Rd"] "RV64::RiscVBext" "";
   mk_irow "binv" 4 ["Rs1"; "Rs2"] ["Rd"] "RV64::RiscVBinv" "";
   mk_irow "bset" 4 ["Rs1"; "Rs2"] ["Rd"] "RV64::RiscVBset" "";
   mk_irow "bclri" 4 ["Rs1"; "RUimm6"] ["Rd"] "RV64::RiscVBclr" "";
   mk_irow "bexti" 4 ["Rs1"; "RUimm6"] ["Rd"] "RV64::RiscVBext" "";
   mk_irow "binvi" 4 ["Rs1"; "RUimm6"] ["Rd"] "RV64::RiscVBinv" "";
   mk_irow "bseti" 4 ["Rs1"; "RUimm6"] ["Rd"] "RV64::RiscVBset" ""].

(** Model only: a simulator: register width, 32-bit and 16-bit decode tables, .isa rows, getters. *)
Record simulator := { s_xlen : Z; s_rows32 : list row; s_rows16 : list row; s_isa : list irow;
  s_src : list (string * src); s_dst : list (string * dst) }.
(** riscv32_decoder.cc, riscv32g_encoding.cc, riscv32g.isa:26-29, 1046-1054. *)
Definition sim_RV32G := {| s_xlen := 32; s_rows32 := d_RiscV32G; s_rows16 := d_RiscV32C; s_isa := isa_32;
  s_src := src_32g; s_dst := dst_32g |}.
(** riscv64_decoder.cc, riscv64g_encoding.cc, riscv64g.isa:36-49. *)
Definition sim_RV64G := {| s_xlen := 64; s_rows32 := d_RiscV64G; s_rows16 := d_RiscV64C; s_isa := isa_64;
  s_src := src_64g; s_dst := dst_64g |}.
(** riscv32g_vec_decoder.cc, riscv32g_vec_encoding.cc, riscv32v.isa:22-40 (the vector rows are left out). *)
Definition sim_RV32GV := {| s_xlen := 32; s_rows32 := d_RiscV32GV; s_rows16 := d_RiscV32C; s_isa := isa_32;
  s_src := src_32gv; s_dst := dst_32gv |}.
(** riscv64g_vec_decoder.cc, riscv64g_vec_encoding.cc, riscv64v.isa:22-42 (the vector rows are left out). *)
Definition sim_RV64GV := {| s_xlen := 64; s_rows32 := d_RiscV64GV; s_rows16 := d_RiscV64C; s_isa := isa_64;
  s_src := src_64gv; s_dst := dst_64gv |}.
(** riscv32gzb_encoding.cc, riscv32gzb.isa:15-30. *)
Definition sim_RV32GZB := {| s_xlen := 32; s_rows32 := d_RiscV32GZB; s_rows16 := d_RiscV32C; s_isa := isa_32 ++ isa_zb32;
  s_src := src_32gzb; s_dst := dst_32gzb |}.
(** riscv64gzb_encoding.cc, riscv64gzb.isa:15-30. *)
Definition sim_RV64GZB := {| s_xlen := 64; s_rows32 := d_RiscV64GZB; s_rows16 := d_RiscV64C; s_isa := isa_64 ++ isa_zb64;
  s_src := src_64gzb; s_dst := dst_64gzb |}.
(** riscv32gzb_vec_encoding.cc, riscv32v.isa:27-47. *)
Definition sim_RV32GVZB := {| s_xlen := 32; s_rows32 := d_RiscV32GVZB; s_rows16 := d_RiscV32C; s_isa := isa_32 ++ isa_zb32;
  s_src := src_32gzb; s_dst := dst_32gzb |}.
(** riscv64gzb_vec_encoding.cc, riscv64v.isa:27-50. *)
Definition sim_RV64GVZB := {| s_xlen := 64; s_rows32 := d_RiscV64GVZB; s_rows16 := d_RiscV64C; s_isa := isa_64 ++ isa_zb64;
  s_src := src_64gzb; s_dst := dst_64gzb |}.

(** riscv_generic_decoder.h:58-77 DecodeInstruction and ParseInstruction of the encodings (e.g.
    riscv32g_encoding.cc:ParseInstruction): the opcode of the 32-bit word read at pc; a word whose two low bits are
    not both set is decoded as a 16-bit instruction. *)
Definition sim_decodes (S : simulator) (iw : Z) (o : string) : Prop :=
  if Z.land iw 3 =? 3 then decodes (s_rows32 S) iw o else decodes (s_rows16 S) (Z.land iw 0xffff) o.

(** Model only: lookup by name. *)
Definition assoc {A} (l : list (string * A)) (n : string) : option A :=
  option_map snd (find (fun p => String.eqb (fst p) n) l).
(** Model only: the i-th operand. *)
Definition get_src (S : simulator) (names : list string) (i : nat) : option src :=
  match nth_error names i with Some n => assoc (s_src S) n | None => None end.
(** Model only. *)
Definition get_dst (S : simulator) (names : list string) (i : nat) : option dst :=
  match nth_error names i with Some n => assoc (s_dst S) n | None => None end.

(** generic::GetInstructionSource (mpact-sim) of an operand made by the getters above: the value before conversion
    to the type asked for.  Registers are read as unsigned numbers.  The 16-bit extractors receive the whole word
    (riscv_encoding_common.h inst_word()): their parameter is uint16_t and they only look at those bits. *)
Definition src_value (h : hart) (iw : Z) (s : src) : Z :=
  match s with
  | SReg fm fld zero => let n := extract fm fld iw in if zero && (n =? 0) then 0 else hx h n
  | SFreg fm fld => hf h (extract fm fld iw)
  | SImm fm fld int32 => let v := extract fm fld iw in if int32 then sgn 32 v else wrap 32 v
  | SLit n => n
  | SX n => hx h n
  end.
(** A write of an integer register through its destination operand; X0Dest is a register nobody reads
    (riscv_state.cc:AddRegister; riscv_getter_helpers.h:78-92). *)
Definition set_x (h : hart) (n v : Z) : hart :=
  {| hx := fun k => if k =? n then v else hx h k; hf := hf h; hpc := hpc h; hm := hm h; hfs := hfs h |}.
(** Model only. *)
Definition set_f (h : hart) (n v : Z) : hart :=
  {| hx := hx h; hf := fun k => if k =? n then v else hf h k; hpc := hpc h; hm := hm h; hfs := hfs h |}.
(** Model only. *)
Definition set_m (h : hart) (m : mem) : hart :=
  {| hx := hx h; hf := hf h; hpc := hpc h; hm := m; hfs := hfs h |}.
(** riscv_top.cc:875-881 SetPc truncates to the width of the pc register. *)
Definition set_pc (w : Z) (h : hart) (pc : Z) : hart :=
  {| hx := hx h; hf := hf h; hpc := wrap w pc; hm := hm h; hfs := hfs h |}.
(** Model only: destination of an x register write of the full width; None: not an x register. *)
Definition write_x (h : hart) (iw : Z) (d : dst) (v : Z) : option hart :=
  match d with
  | DReg fm fld zero => let n := extract fm fld iw in Some (if zero && (n =? 0) then h else set_x h n v)
  | DX n => Some (set_x h n v)
  | DX0 => Some h
  | _ => None
  end.
(** Model only: contents of the destination before the instruction. *)
Definition old_x (h : hart) (iw : Z) (d : dst) : Z :=
  match d with DReg fm fld _ => hx h (extract fm fld iw) | DX n => hx h n | _ => 0 end.

(** riscv_top.cc:333, 357-362 (Step): without a branch the next pc is pc + inst->size(); [lw] is the width of the
    variable that holds it: 64 in the loop, the pc register's once it is written there. *)
Definition next (lw size : Z) (h : hart) : option outcome := Some (Done (set_pc lw h (hpc h + size))).
(** The two kinds of result of an instruction with destinations [d]; a trap leaves the rest to RiscVState::Trap
    (HartModel.v). *)
Definition finish_ctl (w lw size : Z) (h : hart) (iw : Z) (link : option dst) (c : ctl) : option outcome :=
  match c_trap c with
  | Some t => Some (Raise t h)
  | None =>
      let jump_pc k := match c_pc c with Some p => set_pc w k p | None => set_pc lw k (hpc h + size) end in
      match c_link c, link with
      | Some l, Some d => match write_x h iw d l with Some h' => Some (Done (jump_pc h')) | None => None end
      | Some _, None => None
      | None, _ => Some (Done (jump_pc h))
      end
  end.

(** The load's child (riscv_instruction_helpers.h:393-409 RVLoadChild, riscv_f_instructions.cc:141-157
    RiscVIFlwChild) with destination [d].  RVLoadChild writes one element of the register width [aw] of its
    namespace into the destination's data buffer: all of an x register if [aw] is its width, all of an f register
    (64 bits) if [aw] = 64, its low half if [aw] = 32.  None: the element does not fit the register. *)
Definition exec_child (w : Z) (h : hart) (iw : Z) (child : sem) (d : dst) (v : Z) : option hart :=
  match child, d with
  | SemLoadChild aw k, DFreg fm fld =>
      let n := extract fm fld iw in
      let x := load_child aw k v in
      Some (set_f h n (if aw =? 64 then x else Z.lor (Z.land (hf h n) 0xffffffff00000000) x))
  | SemLoadChild aw k, _ => if aw =? w then write_x h iw d (load_child aw k v) else None
  | SemFlwChild, DFreg fm fld =>
      Some (set_f h (extract fm fld iw) (Z.lor (wrap 64 (Z.shiftl (2 ^ 64 - 1) 32)) v))
  | _, _ => None
  end.

(** One instruction object executed: [misa], [max] are the state's; [w] the register width.  None: an operand or
    function the tables do not give, or a semantic function of the other register width writing an x register. *)
Definition exec (S : simulator) (lw : Z) (misa : option Z) (max : Z) (h : hart) (iw : Z) (r : irow) : option outcome :=
  let w := s_xlen S in
  let size := i_size r in
  let src i := get_src S (i_src r) i in
  let val i := option_map (src_value h iw) (src i) in
  match assoc semfuncs (i_sem r) with
  | Some (SemBin aw op) =>
      match val 0%nat, val 1%nat, get_dst S (i_dst r) 0 with
      | Some a, Some b, Some d =>
          if negb (aw =? w) then None else
          match iop_exec Wrapv w op (wrap w a) (wrap w b) (old_x h iw d) with
          | Some v => match write_x h iw d v with Some h' => next lw size h' | None => None end
          | None => None
          end
      | _, _, _ => None
      end
  | Some (SemUn aw op) =>
      match val 0%nat, get_dst S (i_dst r) 0 with
      | Some a, Some d =>
          if negb (aw =? w) then None else
          match iop_exec Wrapv w op (wrap w a) 0 (old_x h iw d) with
          | Some v => match write_x h iw d v with Some h' => next lw size h' | None => None end
          | None => None
          end
      | _, _ => None
      end
  | Some (SemShAdd aw) =>
      match val 0%nat, val 1%nat, val 2%nat, get_dst S (i_dst r) 0 with
      | Some a, Some b, Some n, Some d =>
          if negb (aw =? w) then None else
          match iop_exec Wrapv w (ShAdd n) (wrap w a) (wrap w b) (old_x h iw d) with
          | Some v => match write_x h iw d v with Some h' => next lw size h' | None => None end
          | None => None
          end
      | _, _, _, _ => None
      end
  | Some (SemShAddUw aw) =>
      match val 0%nat, val 1%nat, val 2%nat, get_dst S (i_dst r) 0 with
      | Some a, Some b, Some n, Some d =>
          if negb (aw =? w) then None else
          match iop_exec Wrapv w (ShAddUw n) (wrap w a) (wrap w b) (old_x h iw d) with
          | Some v => match write_x h iw d v with Some h' => next lw size h' | None => None end
          | None => None
          end
      | _, _, _, _ => None
      end
  | Some (SemUpper aw op) =>
      match val 0%nat, get_dst S (i_dst r) 0 with
      | Some a, Some d =>
          if negb (aw =? w) then None else
          match iop_exec Wrapv w op (wrap w a) (wrap w (hpc h)) (old_x h iw d) with
          | Some v => match write_x h iw d v with Some h' => next lw size h' | None => None end
          | None => None
          end
      | _, _ => None
      end
  | Some (SemJal aw) =>
      match val 0%nat, get_dst S (i_dst r) 0, get_dst S (i_dst r) 1 with
      | Some off, Some DPc, Some d =>
          if negb (aw =? w) then None else finish_ctl w lw size h iw (Some d) (jal w misa (hpc h) size (wrap w off))
      | _, _, _ => None
      end
  | Some (SemJalr aw) =>
      match val 0%nat, val 1%nat, get_dst S (i_dst r) 0, get_dst S (i_dst r) 1 with
      | Some base, Some off, Some DPc, Some d =>
          if negb (aw =? w) then None else
          finish_ctl w lw size h iw (Some d) (jalr w misa (hpc h) size (wrap w base) (wrap w off))
      | _, _, _, _ => None
      end
  | Some (SemBranch aw c) =>
      match val 0%nat, val 1%nat, val 2%nat, get_dst S (i_dst r) 0 with
      | Some a, Some b, Some off, Some DPc =>
          if negb (aw =? w) then None else
          match branch_exec w misa c (hpc h) (wrap w a) (wrap w b) (wrap w off) with
          | Some t => finish_ctl w lw size h iw None t
          | None => None
          end
      | _, _, _, _ => None
      end
  | Some (SemLoad aw n) =>
      match val 0%nat, val 1%nat, get_dst S (i_dst r) 0, assoc semfuncs (i_child r) with
      | Some base, Some off, Some d, Some child =>
          match load_memory max (hm h) (hpc h) (eff_address aw (wrap aw base) (wrap aw off)) n with
          | inl v => match exec_child w h iw child d v with Some h' => next lw size h' | None => None end
          | inr t => Some (Raise t h)
          end
      | _, _, _, _ => None
      end
  | Some (SemStore aw k) =>
      match val 0%nat, val 1%nat, val 2%nat with
      | Some base, Some off, Some v =>
          match store_exec aw max (hm h) k (hpc h) (wrap aw base) (wrap aw off) v with
          | inl m => next lw size (set_m h m)
          | inr t => Some (Raise t h)
          end
      | _, _, _ => None
      end
  | Some (SemFstore aw k) =>
      match val 0%nat, val 1%nat, val 2%nat with
      | Some base, Some off, Some v =>
          if hfs h =? 0 then next lw size h else
          match store_exec aw max (hm h) k (hpc h) (wrap aw base) (wrap aw off) v with
          | inl m => next lw size (set_m h m)
          | inr t => Some (Raise t h)
          end
      | _, _, _ => None
      end
  | Some SemNop => next lw size h
  | _ => None
  end.

(** The instruction object the decoder makes for opcode [o]. *)
Definition exec_opcode (S : simulator) (lw : Z) (misa : option Z) (max : Z) (h : hart) (iw : Z) (o : string) : option outcome :=
  match find (fun r => String.eqb (i_name r) o) (s_isa S) with
  | Some r => exec S lw misa max h iw r
  | None => None
  end.

(** riscv_top.cc:292-397 Step(1): the instruction is executed and the pc register written (SetPc). *)
Definition sim_exec (S : simulator) := exec_opcode S (s_xlen S).

(** riscv_i_instructions.cc:36-41 RiscVIllegalInstruction, the semantic function of the default opcode of every
    .isa file: what happens to a word no row applies to. *)
Definition illegal_instruction (h : hart) : outcome :=
  Raise {| t_tval := 0; t_code := 2; t_epc := hpc h |} h.
(** The possible outcomes of executing the word [iw]. *)
Definition sim_word (S : simulator) (lw : Z) (misa : option Z) (max : Z) (h : hart) (iw : Z) (out : outcome) : Prop :=
  (exists o, sim_decodes S iw o /\ exec_opcode S lw misa max h iw o = Some out) \/
  ((forall o, ~ sim_decodes S iw o) /\ out = illegal_instruction h).

(** riscv_generic_decoder.h:81-134 CheckAddress: the exception an instruction address raises. *)
Definition check_address (misa : Z) (max a : Z) : option trap_req :=
  if Z.odd a then Some {| t_tval := a; t_code := 0; t_epc := Z.lxor a 1 |}
  else if (Z.land misa 4 =? 0) && negb (Z.land a 3 =? 0) then Some {| t_tval := a; t_code := 0; t_epc := a - Z.land a 3 |}
  else if max <? a then Some {| t_tval := a; t_code := 1; t_epc := a |}
  else None.

(** generic::DecodeCache (mpact-sim; created in riscv_top.cc:126): the words already decoded, by address.  Trusted:
    an entry is made when its address is first executed, with the word then in memory, and may be dropped at any time
    (it is dropped when another address takes its place); only breakpoints invalidate entries.  Stores do not. *)
Definition cache := Z -> option Z.
(** riscv_top.cc:331 GetDecodedInstruction, riscv_generic_decoder.h:58-77 DecodeInstruction: the word executed at [a]. *)
Definition cached_word (c : cache) (h : hart) (a : Z) : Z :=
  match c a with Some iw => iw | None => load_le (hm h) a 4 end.
(** Model only: what the cache may be after that. *)
Definition cache_after (c : cache) (h : hart) (a : Z) (c' : cache) : Prop :=
  (c' a = Some (cached_word c h a) \/ c' a = None) /\ forall b, b <> a -> c' b = c b \/ c' b = None.

(** Model only: result of a run: an outcome, or the loop variable pc has left the range of the pc register, or
    an instruction is reached that is undefined behaviour or not modelled. *)
Inductive run_result := Ran (out : outcome) | Beyond (pc : Z) (h : hart) | Stuck.
(** riscv_top.cc:326-397, the loop of RiscVTop::Step from address [pc] (a uint64_t), without breakpoints, interrupts or
    halt requests, [n] more instructions to go.  A trap ends the run here: what follows is RiscVState::Trap (HartModel.v).
    Likewise an instruction address beyond the pc register that passes the check, which only an RV32 hart can reach:
    what instructions do there is not modelled. *)
Inductive top_run (S : simulator) (misa max : Z) : nat -> Z -> hart -> cache -> run_result -> Prop :=
  | run_end pc h c : top_run S misa max 0 pc h c (Ran (Done (set_pc (s_xlen S) h pc)))
  | run_beyond n pc h c : 2 ^ s_xlen S <= pc -> check_address misa max pc = None -> top_run S misa max (Datatypes.S n) pc h c (Beyond pc h)
  | run_fault n pc h c t : check_address misa max pc = Some t ->
      top_run S misa max (Datatypes.S n) pc h c (Ran (Raise t (set_pc (s_xlen S) h pc)))
  | run_stuck n pc h c o : pc < 2 ^ s_xlen S -> check_address misa max pc = None ->
      sim_decodes S (cached_word c h pc) o ->
      exec_opcode S 64 (Some misa) max (set_pc (s_xlen S) h pc) (cached_word c h pc) o = None ->
      top_run S misa max (Datatypes.S n) pc h c Stuck
  | run_trap n pc h c t h' : pc < 2 ^ s_xlen S -> check_address misa max pc = None ->
      sim_word S 64 (Some misa) max (set_pc (s_xlen S) h pc) (cached_word c h pc) (Raise t h') ->
      top_run S misa max (Datatypes.S n) pc h c (Ran (Raise t h'))
  | run_step n pc h c h' c' res : pc < 2 ^ s_xlen S -> check_address misa max pc = None ->
      sim_word S 64 (Some misa) max (set_pc (s_xlen S) h pc) (cached_word c h pc) (Done h') ->
      cache_after c h pc c' -> top_run S misa max n (hpc h') h' c' res ->
      top_run S misa max (Datatypes.S n) pc h c res.
(** riscv_top.cc:292-397 RiscVTop::Step(n) from the state [h]. *)
Definition top_step (S : simulator) (misa max : Z) (n : nat) (h : hart) (c : cache) (res : run_result) : Prop :=
  top_run S misa max n (hpc h) h c res.
