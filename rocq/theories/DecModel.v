(** Model of the decode tables: the instruction groups of the .bin_fmt files.

    Trusted: the meaning of the tables.  The generator that turns them into a decoder belongs to
    mpact-sim, not to /repo; its documented meaning is modelled: a row applies to a word if each of its
    constraints holds of the fields extracted in the row's format, and the decoder returns the opcode of
    some row that applies, or none if no row does.  Which one it returns when several apply is left
    open. *)
From Coq Require Import ZArith List String Bool.
From Verif Require Import Bits FmtSpec FmtModel.
Import ListNotations.
Local Open Scope string_scope.
Local Open Scope Z_scope.

(** Model only: syntax of a row: opcode name, format, constraints on fields. *)
Inductive rel := REq | RNe | RLt | RGt | RGe | RLe.
(** Model only: a field compared with a number or with another field. *)
Inductive constraint := CVal (f : string) (r : rel) (v : Z) | CFld (f : string) (r : rel) (g : string).
(** Model only. *)
Record row := mk_row { r_name : string; r_fmt : format; r_cons : list constraint }.

(** Model only: the comparison. *)
Definition compares (r : rel) (x y : Z) : bool :=
  match r with
  | REq => x =? y | RNe => negb (x =? y) | RLt => x <? y | RGt => y <? x | RGe => y <=? x | RLe => x <=? y end.
(** Generated code (see the head of this file): one constraint. *)
Definition satisfied (fm : format) (w : Z) (c : constraint) : bool :=
  match c with
  | CVal f r v => compares r (extract fm f w) v
  | CFld f r g => compares r (extract fm f w) (extract fm g w) end.
(** Generated code: a row applies to the word. *)
Definition applies (r : row) (w : Z) : bool := forallb (satisfied (r_fmt r) w) (r_cons r).
(** Generated code: the decoder may return opcode [o] for the word. *)
Definition decodes (rows : list row) (w : Z) (o : string) : Prop :=
  exists r, In r rows /\ applies r w = true /\ r_name r = o.

(** riscv32g.bin_fmt:43-89, instruction group RiscVIInstBase32. *)
Definition g_RiscVIInstBase32 : list row := [
   mk_row "lui" f_UType [CVal "opcode" REq 0x37; CVal "rd" RNe 0];
   mk_row "auipc" f_UType [CVal "opcode" REq 0x17; CVal "rd" RNe 0];
   mk_row "jal" f_JType [CVal "rd" RNe 0; CVal "opcode" REq 0x6f];
   mk_row "j" f_JType [CVal "rd" REq 0; CVal "opcode" REq 0x6f];
   mk_row "jalr" f_IType [CVal "rd" RNe 0; CVal "func3" REq 0; CVal "opcode" REq 0x67];
   mk_row "jr" f_IType [CVal "rd" REq 0; CVal "func3" REq 0; CVal "opcode" REq 0x67];
   mk_row "beq" f_BType [CVal "func3" REq 0; CVal "opcode" REq 0x63];
   mk_row "bne" f_BType [CVal "func3" REq 1; CVal "opcode" REq 0x63];
   mk_row "blt" f_BType [CVal "func3" REq 4; CVal "opcode" REq 0x63];
   mk_row "bge" f_BType [CVal "func3" REq 5; CVal "opcode" REq 0x63];
   mk_row "bltu" f_BType [CVal "func3" REq 6; CVal "opcode" REq 0x63];
   mk_row "bgeu" f_BType [CVal "func3" REq 7; CVal "opcode" REq 0x63];
   mk_row "lb" f_BType [CVal "func3" REq 0; CVal "opcode" REq 3];
   mk_row "lh" f_BType [CVal "func3" REq 1; CVal "opcode" REq 3];
   mk_row "lw" f_BType [CVal "func3" REq 2; CVal "opcode" REq 3];
   mk_row "lbu" f_BType [CVal "func3" REq 4; CVal "opcode" REq 3];
   mk_row "lhu" f_BType [CVal "func3" REq 5; CVal "opcode" REq 3];
   mk_row "sb" f_SType [CVal "func3" REq 0; CVal "opcode" REq 0x23];
   mk_row "sh" f_SType [CVal "func3" REq 1; CVal "opcode" REq 0x23];
   mk_row "sw" f_SType [CVal "func3" REq 2; CVal "opcode" REq 0x23];
   mk_row "addi" f_IType [CVal "func3" REq 0; CVal "opcode" REq 0x13; CVal "rd" RNe 0];
   mk_row "nop" f_IType [CVal "func3" REq 0; CVal "opcode" REq 0x13; CVal "rd" REq 0; CVal "imm12" REq 0; CVal "rs1" REq 0];
   mk_row "slti" f_IType [CVal "func3" REq 2; CVal "opcode" REq 0x13; CVal "rd" RNe 0];
   mk_row "sltiu" f_IType [CVal "func3" REq 3; CVal "opcode" REq 0x13; CVal "rd" RNe 0];
   mk_row "xori" f_IType [CVal "func3" REq 4; CVal "rd" RNe 0; CVal "opcode" REq 0x13];
   mk_row "ori" f_IType [CVal "func3" REq 6; CVal "rd" RNe 0; CVal "opcode" REq 0x13];
   mk_row "andi" f_IType [CVal "func3" REq 7; CVal "opcode" REq 0x13; CVal "rd" RNe 0];
   mk_row "slli" f_RType [CVal "func7" REq 0; CVal "func3" REq 1; CVal "opcode" REq 0x13];
   mk_row "srli" f_RType [CVal "func7" REq 0; CVal "func3" REq 5; CVal "rd" RNe 0; CVal "opcode" REq 0x13];
   mk_row "srai" f_RType [CVal "func7" REq 0x20; CVal "func3" REq 5; CVal "opcode" REq 0x13];
   mk_row "add" f_RType [CVal "func7" REq 0; CVal "func3" REq 0; CVal "rd" RNe 0; CVal "opcode" REq 0x33];
   mk_row "sub" f_RType [CVal "func7" REq 0x20; CVal "func3" REq 0; CVal "rd" RNe 0; CVal "opcode" REq 0x33];
   mk_row "sll" f_RType [CVal "func7" REq 0; CVal "func3" REq 1; CVal "rd" RNe 0; CVal "opcode" REq 0x33];
   mk_row "slt" f_RType [CVal "func7" REq 0; CVal "func3" REq 2; CVal "rd" RNe 0; CVal "opcode" REq 0x33];
   mk_row "sltu" f_RType [CVal "func7" REq 0; CVal "func3" REq 3; CVal "rd" RNe 0; CVal "opcode" REq 0x33];
   mk_row "xor" f_RType [CVal "func7" REq 0; CVal "func3" REq 4; CVal "rd" RNe 0; CVal "opcode" REq 0x33];
   mk_row "srl" f_RType [CVal "func7" REq 0; CVal "func3" REq 5; CVal "rd" RNe 0; CVal "opcode" REq 0x33];
   mk_row "sra" f_RType [CVal "func7" REq 0x20; CVal "func3" REq 5; CVal "rd" RNe 0; CVal "opcode" REq 0x33];
   mk_row "or" f_RType [CVal "func7" REq 0; CVal "func3" REq 6; CVal "rd" RNe 0; CVal "opcode" REq 0x33];
   mk_row "and" f_RType [CVal "func7" REq 0; CVal "func3" REq 7; CVal "rd" RNe 0; CVal "opcode" REq 0x33];
   mk_row "fence" f_Fence [CVal "fm" REq 0; CVal "succ" RNe 0; CVal "func3" REq 0; CVal "opcode" REq 0xf];
   mk_row "fence_tso" f_Fence [CVal "fm" REq 8; CVal "pred" REq 3; CVal "succ" REq 3; CVal "func3" REq 0; CVal "opcode" REq 0xf];
   mk_row "ecall" f_Inst32Format [CVal "bits" REq 0; CVal "opcode" REq 0x73];
   mk_row "ebreak" f_Inst32Format [CVal "bits" REq 0x2000; CVal "opcode" REq 0x73]].

(** riscv32g.bin_fmt:217-253, instruction group RiscVIHints32. *)
Definition g_RiscVIHints32 : list row := [
   mk_row "lui_hint" f_UType [CVal "opcode" REq 0x37; CVal "rd" REq 0];
   mk_row "auipc_hint" f_UType [CVal "opcode" REq 0x17; CVal "rd" REq 0];
   mk_row "addi_hint1" f_IType [CVal "func3" REq 0; CVal "opcode" REq 0x13; CVal "rd" REq 0; CVal "rs1" RNe 0];
   mk_row "addi_hint2" f_IType [CVal "func3" REq 0; CVal "opcode" REq 0x13; CVal "rd" REq 0; CVal "imm12" RNe 0];
   mk_row "slti_hint" f_IType [CVal "func3" REq 2; CVal "opcode" REq 0x13; CVal "rd" REq 0];
   mk_row "sltiu_hint" f_IType [CVal "func3" REq 3; CVal "opcode" REq 0x13; CVal "rd" REq 0];
   mk_row "xori_hint" f_IType [CVal "func3" REq 4; CVal "rd" REq 0; CVal "opcode" REq 0x13];
   mk_row "ori_hint" f_IType [CVal "func3" REq 6; CVal "rd" REq 0; CVal "opcode" REq 0x13];
   mk_row "andi_hint" f_IType [CVal "func3" REq 7; CVal "opcode" REq 0x13; CVal "rd" REq 0];
   mk_row "srli_hint" f_RType [CVal "func7" REq 0; CVal "func3" REq 5; CVal "rd" REq 0; CVal "opcode" REq 0x13];
   mk_row "slt_hint" f_RType [CVal "func7" REq 0; CVal "func3" REq 2; CVal "rd" REq 0; CVal "opcode" REq 0x33];
   mk_row "slli_semihost" f_RType [CVal "func7" REq 0; CVal "func3" REq 1; CVal "rd" REq 0; CVal "rs1" REq 0; CVal "r_uimm5" REq 0x1f; CVal "opcode" REq 0x13];
   mk_row "slli_hint1" f_RType [CVal "func7" REq 0; CVal "func3" REq 1; CVal "rd" REq 0; CVal "rs1" RNe 0; CVal "opcode" REq 0x13];
   mk_row "slli_hint2" f_RType [CVal "func7" REq 0; CVal "func3" REq 1; CVal "rd" REq 0; CVal "r_uimm5" RNe 0x1f; CVal "opcode" REq 0x13];
   mk_row "srai_semihost" f_RType [CVal "func7" REq 0x20; CVal "func3" REq 5; CVal "rd" REq 0; CVal "rs1" REq 0; CVal "r_uimm5" REq 7; CVal "opcode" REq 0x13];
   mk_row "srai_hint1" f_RType [CVal "func7" REq 0x20; CVal "func3" REq 5; CVal "rd" REq 0; CVal "rs1" RNe 0; CVal "opcode" REq 0x13];
   mk_row "srai_hint2" f_RType [CVal "func7" REq 0x20; CVal "func3" REq 5; CVal "rd" REq 0; CVal "r_uimm5" RNe 7; CVal "opcode" REq 0x13];
   mk_row "add_hint1" f_RType [CVal "func7" REq 0; CVal "func3" REq 0; CVal "rd" REq 0; CVal "rs1" RNe 0; CVal "opcode" REq 0x33];
   mk_row "add_hint2" f_RType [CVal "func7" REq 0; CVal "func3" REq 0; CVal "rd" REq 0; CVal "rs1" REq 0; CVal "rs2" RGt 5; CVal "opcode" REq 0x33];
   mk_row "add_hint3" f_RType [CVal "func7" REq 0; CVal "func3" REq 0; CVal "rd" REq 0; CVal "rs1" REq 0; CVal "rs2" RLt 2; CVal "opcode" REq 0x33];
   mk_row "sub_hint" f_RType [CVal "func7" REq 0x20; CVal "func3" REq 0; CVal "rd" REq 0; CVal "opcode" REq 0x33];
   mk_row "sll_hint" f_RType [CVal "func7" REq 0; CVal "func3" REq 1; CVal "rd" REq 0; CVal "opcode" REq 0x33];
   mk_row "sltu_hint" f_RType [CVal "func7" REq 0; CVal "func3" REq 3; CVal "rd" REq 0; CVal "opcode" REq 0x33];
   mk_row "xor_hint" f_RType [CVal "func7" REq 0; CVal "func3" REq 4; CVal "rd" REq 0; CVal "opcode" REq 0x33];
   mk_row "srl_hint" f_RType [CVal "func7" REq 0; CVal "func3" REq 5; CVal "rd" REq 0; CVal "opcode" REq 0x33];
   mk_row "sra_hint" f_RType [CVal "func7" REq 0x20; CVal "func3" REq 5; CVal "rd" REq 0; CVal "opcode" REq 0x33];
   mk_row "or_hint" f_RType [CVal "func7" REq 0; CVal "func3" REq 6; CVal "rd" REq 0; CVal "opcode" REq 0x33];
   mk_row "and_hint" f_RType [CVal "func7" REq 0; CVal "func3" REq 7; CVal "rd" REq 0; CVal "opcode" REq 0x33];
   mk_row "fence_hint1" f_Fence [CVal "func3" REq 0; CVal "rd" REq 0; CVal "rs1" RNe 0; CVal "fm" REq 0; CVal "pred" REq 0; CVal "opcode" REq 0xf];
   mk_row "fence_hint2" f_Fence [CVal "func3" REq 0; CVal "rd" REq 0; CVal "rs1" RNe 0; CVal "fm" REq 0; CVal "succ" REq 0; CVal "opcode" REq 0xf];
   mk_row "fence_hint3" f_Fence [CVal "func3" REq 0; CVal "rd" RNe 0; CVal "rs1" REq 0; CVal "fm" REq 0; CVal "pred" REq 0; CVal "opcode" REq 0xf];
   mk_row "fence_hint4" f_Fence [CVal "func3" REq 0; CVal "rd" RNe 0; CVal "rs1" REq 0; CVal "fm" REq 0; CVal "succ" REq 0; CVal "opcode" REq 0xf];
   mk_row "fence_hint5" f_Fence [CVal "func3" REq 0; CVal "rd" REq 0; CVal "rs1" REq 0; CVal "fm" REq 0; CVal "pred" REq 0; CVal "succ" RNe 0; CVal "opcode" REq 0xf];
   mk_row "fence_hint6" f_Fence [CVal "func3" REq 0; CVal "rd" REq 0; CVal "rs1" REq 0; CVal "fm" REq 0; CVal "succ" REq 0; CVal "opcode" REq 0xf];
   mk_row "fence_hint7" f_Fence [CVal "func3" REq 0; CVal "rd" RNe 0; CVal "rs1" REq 0; CVal "fm" REq 0; CVal "pred" RNe 1; CVal "succ" REq 0; CVal "opcode" REq 0xf]].

(** riscv32g.bin_fmt:91-94, instruction group RiscVZifenceiInst32. *)
Definition g_RiscVZifenceiInst32 : list row := [
   mk_row "fencei" f_IType [CVal "func3" REq 1; CVal "opcode" REq 0xf]].

(** riscv32g.bin_fmt:96-115, instruction group RiscVZicsrInst32. *)
Definition g_RiscVZicsrInst32 : list row := [
   mk_row "csrrw" f_IType [CVal "func3" REq 1; CVal "u_imm12" RNe 0xc00; CVal "rd" RNe 0; CVal "opcode" REq 0x73];
   mk_row "csrrs" f_IType [CVal "func3" REq 2; CVal "rs1" RNe 0; CVal "rd" RNe 0; CVal "opcode" REq 0x73];
   mk_row "csrrc" f_IType [CVal "func3" REq 3; CVal "rs1" RNe 0; CVal "rd" RNe 0; CVal "opcode" REq 0x73];
   mk_row "csrrs_nr" f_IType [CVal "func3" REq 2; CVal "rs1" RNe 0; CVal "rd" REq 0; CVal "opcode" REq 0x73];
   mk_row "csrrc_nr" f_IType [CVal "func3" REq 3; CVal "rs1" RNe 0; CVal "rd" REq 0; CVal "opcode" REq 0x73];
   mk_row "csrrw_nr" f_IType [CVal "func3" REq 1; CVal "u_imm12" RNe 0xc00; CVal "rd" REq 0; CVal "opcode" REq 0x73];
   mk_row "csrrs_nw" f_IType [CVal "func3" REq 2; CVal "rs1" REq 0; CVal "opcode" REq 0x73];
   mk_row "csrrc_nw" f_IType [CVal "func3" REq 3; CVal "rs1" REq 0; CVal "opcode" REq 0x73];
   mk_row "csrrwi" f_IType [CVal "func3" REq 5; CVal "rd" RNe 0; CVal "opcode" REq 0x73];
   mk_row "csrrsi" f_IType [CVal "func3" REq 6; CVal "rs1" RNe 0; CVal "rd" RNe 0; CVal "opcode" REq 0x73];
   mk_row "csrrci" f_IType [CVal "func3" REq 7; CVal "rs1" RNe 0; CVal "rd" RNe 0; CVal "opcode" REq 0x73];
   mk_row "csrrsi_nr" f_IType [CVal "func3" REq 6; CVal "rs1" RNe 0; CVal "rd" REq 0; CVal "opcode" REq 0x73];
   mk_row "csrrci_nr" f_IType [CVal "func3" REq 7; CVal "rs1" RNe 0; CVal "rd" REq 0; CVal "opcode" REq 0x73];
   mk_row "csrrwi_nr" f_IType [CVal "func3" REq 5; CVal "rd" REq 0; CVal "opcode" REq 0x73];
   mk_row "csrrsi_nw" f_IType [CVal "func3" REq 6; CVal "rs1" REq 0; CVal "opcode" REq 0x73];
   mk_row "csrrci_nw" f_IType [CVal "func3" REq 7; CVal "rs1" REq 0; CVal "opcode" REq 0x73];
   mk_row "unimp" f_IType [CVal "func3" REq 1; CVal "u_imm12" REq 0xc00; CVal "rs1" REq 0; CVal "rd" REq 0; CVal "opcode" REq 0x73]].

(** riscv32g.bin_fmt:117-127, instruction group RiscVMInst32. *)
Definition g_RiscVMInst32 : list row := [
   mk_row "mul" f_RType [CVal "func7" REq 1; CVal "func3" REq 0; CVal "opcode" REq 0x33];
   mk_row "mulh" f_RType [CVal "func7" REq 1; CVal "func3" REq 1; CVal "opcode" REq 0x33];
   mk_row "mulhsu" f_RType [CVal "func7" REq 1; CVal "func3" REq 2; CVal "opcode" REq 0x33];
   mk_row "mulhu" f_RType [CVal "func7" REq 1; CVal "func3" REq 3; CVal "opcode" REq 0x33];
   mk_row "div" f_RType [CVal "func7" REq 1; CVal "func3" REq 4; CVal "opcode" REq 0x33];
   mk_row "divu" f_RType [CVal "func7" REq 1; CVal "func3" REq 5; CVal "opcode" REq 0x33];
   mk_row "rem" f_RType [CVal "func7" REq 1; CVal "func3" REq 6; CVal "opcode" REq 0x33];
   mk_row "remu" f_RType [CVal "func7" REq 1; CVal "func3" REq 7; CVal "opcode" REq 0x33]].

(** riscv32g.bin_fmt:129-142, instruction group RiscVAInst32. *)
Definition g_RiscVAInst32 : list row := [
   mk_row "lrw" f_AType [CVal "func5" REq 2; CVal "rs2" REq 0; CVal "func3" REq 2; CVal "opcode" REq 0x2f];
   mk_row "scw" f_AType [CVal "func5" REq 3; CVal "func3" REq 2; CVal "opcode" REq 0x2f];
   mk_row "amoswapw" f_AType [CVal "func5" REq 1; CVal "func3" REq 2; CVal "opcode" REq 0x2f];
   mk_row "amoaddw" f_AType [CVal "func5" REq 0; CVal "func3" REq 2; CVal "opcode" REq 0x2f];
   mk_row "amoxorw" f_AType [CVal "func5" REq 4; CVal "func3" REq 2; CVal "opcode" REq 0x2f];
   mk_row "amoandw" f_AType [CVal "func5" REq 0xc; CVal "func3" REq 2; CVal "opcode" REq 0x2f];
   mk_row "amoorw" f_AType [CVal "func5" REq 8; CVal "func3" REq 2; CVal "opcode" REq 0x2f];
   mk_row "amominw" f_AType [CVal "func5" REq 0x10; CVal "func3" REq 2; CVal "opcode" REq 0x2f];
   mk_row "amomaxw" f_AType [CVal "func5" REq 0x14; CVal "func3" REq 2; CVal "opcode" REq 0x2f];
   mk_row "amominuw" f_AType [CVal "func5" REq 0x18; CVal "func3" REq 2; CVal "opcode" REq 0x2f];
   mk_row "amomaxuw" f_AType [CVal "func5" REq 0x1c; CVal "func3" REq 2; CVal "opcode" REq 0x2f]].

(** riscv32g.bin_fmt:144-172, instruction group RiscVFInst32. *)
Definition g_RiscVFInst32 : list row := [
   mk_row "flw" f_IType [CVal "func3" REq 2; CVal "opcode" REq 7];
   mk_row "fsw" f_SType [CVal "func3" REq 2; CVal "opcode" REq 0x27];
   mk_row "fmadd_s" f_R4Type [CVal "func2" REq 0; CVal "opcode" REq 0x43];
   mk_row "fmsub_s" f_R4Type [CVal "func2" REq 0; CVal "opcode" REq 0x47];
   mk_row "fnmsub_s" f_R4Type [CVal "func2" REq 0; CVal "opcode" REq 0x4b];
   mk_row "fnmadd_s" f_R4Type [CVal "func2" REq 0; CVal "opcode" REq 0x4f];
   mk_row "fadd_s" f_RType [CVal "func7" REq 0; CVal "opcode" REq 0x53];
   mk_row "fsub_s" f_RType [CVal "func7" REq 4; CVal "opcode" REq 0x53];
   mk_row "fmul_s" f_RType [CVal "func7" REq 8; CVal "opcode" REq 0x53];
   mk_row "fdiv_s" f_RType [CVal "func7" REq 0xc; CVal "opcode" REq 0x53];
   mk_row "fsqrt_s" f_RType [CVal "func7" REq 0x2c; CVal "rs2" REq 0; CVal "opcode" REq 0x53];
   mk_row "fsgnj_s" f_RType [CVal "func7" REq 0x10; CVal "func3" REq 0; CVal "opcode" REq 0x53];
   mk_row "fsgnjn_s" f_RType [CVal "func7" REq 0x10; CVal "func3" REq 1; CVal "opcode" REq 0x53];
   mk_row "fsgnjx_s" f_RType [CVal "func7" REq 0x10; CVal "func3" REq 2; CVal "opcode" REq 0x53];
   mk_row "fmin_s" f_RType [CVal "func7" REq 0x14; CVal "func3" REq 0; CVal "opcode" REq 0x53];
   mk_row "fmax_s" f_RType [CVal "func7" REq 0x14; CVal "func3" REq 1; CVal "opcode" REq 0x53];
   mk_row "fcvt_ws" f_RType [CVal "func7" REq 0x60; CVal "rs2" REq 0; CVal "opcode" REq 0x53];
   mk_row "fcvt_wus" f_RType [CVal "func7" REq 0x60; CVal "rs2" REq 1; CVal "opcode" REq 0x53];
   mk_row "fmv_xw" f_RType [CVal "func7" REq 0x70; CVal "rs2" REq 0; CVal "func3" REq 0; CVal "opcode" REq 0x53];
   mk_row "fcmpeq_s" f_RType [CVal "func7" REq 0x50; CVal "func3" REq 2; CVal "opcode" REq 0x53];
   mk_row "fcmplt_s" f_RType [CVal "func7" REq 0x50; CVal "func3" REq 1; CVal "opcode" REq 0x53];
   mk_row "fcmple_s" f_RType [CVal "func7" REq 0x50; CVal "func3" REq 0; CVal "opcode" REq 0x53];
   mk_row "fclass_s" f_RType [CVal "func7" REq 0x70; CVal "rs2" REq 0; CVal "func3" REq 1; CVal "opcode" REq 0x53];
   mk_row "fcvt_sw" f_RType [CVal "func7" REq 0x68; CVal "rs2" REq 0; CVal "opcode" REq 0x53];
   mk_row "fcvt_swu" f_RType [CVal "func7" REq 0x68; CVal "rs2" REq 1; CVal "opcode" REq 0x53];
   mk_row "fmv_wx" f_RType [CVal "func7" REq 0x78; CVal "rs2" REq 0; CVal "func3" REq 0; CVal "opcode" REq 0x53]].

(** riscv32g.bin_fmt:174-202, instruction group RiscVDInst32. *)
Definition g_RiscVDInst32 : list row := [
   mk_row "fld" f_IType [CVal "func3" REq 3; CVal "opcode" REq 7];
   mk_row "fsd" f_SType [CVal "func3" REq 3; CVal "opcode" REq 0x27];
   mk_row "fmadd_d" f_R4Type [CVal "func2" REq 1; CVal "opcode" REq 0x43];
   mk_row "fmsub_d" f_R4Type [CVal "func2" REq 1; CVal "opcode" REq 0x47];
   mk_row "fnmsub_d" f_R4Type [CVal "func2" REq 1; CVal "opcode" REq 0x4b];
   mk_row "fnmadd_d" f_R4Type [CVal "func2" REq 1; CVal "opcode" REq 0x4f];
   mk_row "fadd_d" f_RType [CVal "func7" REq 1; CVal "opcode" REq 0x53];
   mk_row "fsub_d" f_RType [CVal "func7" REq 5; CVal "opcode" REq 0x53];
   mk_row "fmul_d" f_RType [CVal "func7" REq 9; CVal "opcode" REq 0x53];
   mk_row "fdiv_d" f_RType [CVal "func7" REq 0xd; CVal "opcode" REq 0x53];
   mk_row "fsqrt_d" f_RType [CVal "func7" REq 0x2d; CVal "rs2" REq 0; CVal "opcode" REq 0x53];
   mk_row "fsgnj_d" f_RType [CVal "func7" REq 0x11; CVal "func3" REq 0; CVal "opcode" REq 0x53];
   mk_row "fsgnjn_d" f_RType [CVal "func7" REq 0x11; CVal "func3" REq 1; CVal "opcode" REq 0x53];
   mk_row "fsgnjx_d" f_RType [CVal "func7" REq 0x11; CVal "func3" REq 2; CVal "opcode" REq 0x53];
   mk_row "fmin_d" f_RType [CVal "func7" REq 0x15; CVal "func3" REq 0; CVal "opcode" REq 0x53];
   mk_row "fmax_d" f_RType [CVal "func7" REq 0x15; CVal "func3" REq 1; CVal "opcode" REq 0x53];
   mk_row "fcvt_sd" f_RType [CVal "func7" REq 0x20; CVal "rs2" REq 1; CVal "opcode" REq 0x53];
   mk_row "fcvt_ds" f_RType [CVal "func7" REq 0x21; CVal "rs2" REq 0; CVal "opcode" REq 0x53];
   mk_row "fcmpeq_d" f_RType [CVal "func7" REq 0x51; CVal "func3" REq 2; CVal "opcode" REq 0x53];
   mk_row "fcmplt_d" f_RType [CVal "func7" REq 0x51; CVal "func3" REq 1; CVal "opcode" REq 0x53];
   mk_row "fcmple_d" f_RType [CVal "func7" REq 0x51; CVal "func3" REq 0; CVal "opcode" REq 0x53];
   mk_row "fclass_d" f_RType [CVal "func7" REq 0x71; CVal "rs2" REq 0; CVal "func3" REq 1; CVal "opcode" REq 0x53];
   mk_row "fcvt_wd" f_RType [CVal "func7" REq 0x61; CVal "rs2" REq 0; CVal "opcode" REq 0x53];
   mk_row "fcvt_wud" f_RType [CVal "func7" REq 0x61; CVal "rs2" REq 1; CVal "opcode" REq 0x53];
   mk_row "fcvt_dw" f_RType [CVal "func7" REq 0x69; CVal "rs2" REq 0; CVal "opcode" REq 0x53];
   mk_row "fcvt_dwu" f_RType [CVal "func7" REq 0x69; CVal "rs2" REq 1; CVal "opcode" REq 0x53]].

(** riscv32g.bin_fmt:204-214, instruction group RiscVPrivInst32. *)
Definition g_RiscVPrivInst32 : list row := [
   mk_row "uret" f_Inst32Format [CVal "bits" REq 0x4000; CVal "opcode" REq 0x73];
   mk_row "sret" f_Inst32Format [CVal "bits" REq 0x204000; CVal "opcode" REq 0x73];
   mk_row "mret" f_Inst32Format [CVal "bits" REq 0x604000; CVal "opcode" REq 0x73];
   mk_row "wfi" f_Inst32Format [CVal "bits" REq 0x20a000; CVal "opcode" REq 0x73];
   mk_row "sfence_vma_zz" f_RType [CVal "func7" REq 9; CVal "rs2" REq 0; CVal "rs1" REq 0; CVal "func3" REq 0; CVal "rd" REq 0; CVal "opcode" REq 0x73];
   mk_row "sfence_vma_zn" f_RType [CVal "func7" REq 9; CVal "rs2" RNe 0; CVal "rs1" REq 0; CVal "func3" REq 0; CVal "rd" REq 0; CVal "opcode" REq 0x73];
   mk_row "sfence_vma_nz" f_RType [CVal "func7" REq 9; CVal "rs2" REq 0; CVal "rs1" RNe 0; CVal "func3" REq 0; CVal "rd" REq 0; CVal "opcode" REq 0x73];
   mk_row "sfence_vma_nn" f_RType [CVal "func7" REq 9; CVal "rs2" RNe 0; CVal "rs1" RNe 0; CVal "func3" REq 0; CVal "rd" REq 0; CVal "opcode" REq 0x73]].

(** riscv64g.bin_fmt:31-222, instruction group RiscVGInstBase32. *)
Definition g_RiscVGInstBase32 : list row := [
   mk_row "lui" f_UType [CVal "opcode" REq 0x37];
   mk_row "auipc" f_UType [CVal "opcode" REq 0x17];
   mk_row "jal" f_JType [CVal "rd" RNe 0; CVal "opcode" REq 0x6f];
   mk_row "j" f_JType [CVal "rd" REq 0; CVal "opcode" REq 0x6f];
   mk_row "jalr" f_IType [CVal "rd" RNe 0; CVal "func3" REq 0; CVal "opcode" REq 0x67];
   mk_row "jr" f_IType [CVal "rd" REq 0; CVal "func3" REq 0; CVal "opcode" REq 0x67];
   mk_row "beq" f_BType [CVal "func3" REq 0; CVal "opcode" REq 0x63];
   mk_row "bne" f_BType [CVal "func3" REq 1; CVal "opcode" REq 0x63];
   mk_row "blt" f_BType [CVal "func3" REq 4; CVal "opcode" REq 0x63];
   mk_row "bge" f_BType [CVal "func3" REq 5; CVal "opcode" REq 0x63];
   mk_row "bltu" f_BType [CVal "func3" REq 6; CVal "opcode" REq 0x63];
   mk_row "bgeu" f_BType [CVal "func3" REq 7; CVal "opcode" REq 0x63];
   mk_row "lb" f_BType [CVal "func3" REq 0; CVal "opcode" REq 3];
   mk_row "ld" f_BType [CVal "func3" REq 3; CVal "opcode" REq 3];
   mk_row "lh" f_BType [CVal "func3" REq 1; CVal "opcode" REq 3];
   mk_row "lw" f_BType [CVal "func3" REq 2; CVal "opcode" REq 3];
   mk_row "lwu" f_BType [CVal "func3" REq 6; CVal "opcode" REq 3];
   mk_row "lbu" f_BType [CVal "func3" REq 4; CVal "opcode" REq 3];
   mk_row "lhu" f_BType [CVal "func3" REq 5; CVal "opcode" REq 3];
   mk_row "sb" f_SType [CVal "func3" REq 0; CVal "opcode" REq 0x23];
   mk_row "sh" f_SType [CVal "func3" REq 1; CVal "opcode" REq 0x23];
   mk_row "sw" f_SType [CVal "func3" REq 2; CVal "opcode" REq 0x23];
   mk_row "sd" f_SType [CVal "func3" REq 3; CVal "opcode" REq 0x23];
   mk_row "addi" f_IType [CVal "func3" REq 0; CVal "opcode" REq 0x13];
   mk_row "nop" f_IType [CVal "func3" REq 0; CVal "opcode" REq 0x13; CVal "rd" REq 0; CVal "imm12" REq 0; CVal "rs1" REq 0];
   mk_row "addiw" f_IType [CVal "func3" REq 0; CVal "opcode" REq 0x1b];
   mk_row "slti" f_IType [CVal "func3" REq 2; CVal "opcode" REq 0x13];
   mk_row "sltiu" f_IType [CVal "func3" REq 3; CVal "opcode" REq 0x13];
   mk_row "xori" f_IType [CVal "func3" REq 4; CVal "opcode" REq 0x13];
   mk_row "ori" f_IType [CVal "func3" REq 6; CVal "opcode" REq 0x13];
   mk_row "andi" f_IType [CVal "func3" REq 7; CVal "opcode" REq 0x13];
   mk_row "slli" f_RSType [CVal "func6" REq 0; CVal "func3" REq 1; CVal "opcode" REq 0x13];
   mk_row "srli" f_RSType [CVal "func6" REq 0; CVal "func3" REq 5; CVal "opcode" REq 0x13];
   mk_row "srai" f_RSType [CVal "func6" REq 0x10; CVal "func3" REq 5; CVal "opcode" REq 0x13];
   mk_row "slliw" f_RType [CVal "func7" REq 0; CVal "func3" REq 1; CVal "opcode" REq 0x1b];
   mk_row "srliw" f_RType [CVal "func7" REq 0; CVal "func3" REq 5; CVal "opcode" REq 0x1b];
   mk_row "sraiw" f_RType [CVal "func7" REq 0x20; CVal "func3" REq 5; CVal "opcode" REq 0x1b];
   mk_row "add" f_RType [CVal "func7" REq 0; CVal "func3" REq 0; CVal "rd" RNe 0; CVal "opcode" REq 0x33];
   mk_row "addw" f_RType [CVal "func7" REq 0; CVal "func3" REq 0; CVal "opcode" REq 0x3b];
   mk_row "sub" f_RType [CVal "func7" REq 0x20; CVal "func3" REq 0; CVal "opcode" REq 0x33];
   mk_row "subw" f_RType [CVal "func7" REq 0x20; CVal "func3" REq 0; CVal "opcode" REq 0x3b];
   mk_row "sll" f_RType [CVal "func7" REq 0; CVal "func3" REq 1; CVal "opcode" REq 0x33];
   mk_row "sllw" f_RType [CVal "func7" REq 0; CVal "func3" REq 1; CVal "opcode" REq 0x3b];
   mk_row "slt" f_RType [CVal "func7" REq 0; CVal "func3" REq 2; CVal "opcode" REq 0x33];
   mk_row "sltu" f_RType [CVal "func7" REq 0; CVal "func3" REq 3; CVal "opcode" REq 0x33];
   mk_row "xor" f_RType [CVal "func7" REq 0; CVal "func3" REq 4; CVal "opcode" REq 0x33];
   mk_row "srl" f_RType [CVal "func7" REq 0; CVal "func3" REq 5; CVal "opcode" REq 0x33];
   mk_row "srlw" f_RType [CVal "func7" REq 0; CVal "func3" REq 5; CVal "opcode" REq 0x3b];
   mk_row "sra" f_RType [CVal "func7" REq 0x20; CVal "func3" REq 5; CVal "opcode" REq 0x33];
   mk_row "sraw" f_RType [CVal "func7" REq 0x20; CVal "func3" REq 5; CVal "opcode" REq 0x3b];
   mk_row "or" f_RType [CVal "func7" REq 0; CVal "func3" REq 6; CVal "opcode" REq 0x33];
   mk_row "and" f_RType [CVal "func7" REq 0; CVal "func3" REq 7; CVal "opcode" REq 0x33];
   mk_row "fence" f_Fence [CVal "fm" REq 0; CVal "succ" RNe 0; CVal "func3" REq 0; CVal "opcode" REq 0xf];
   mk_row "fence_tso" f_Fence [CVal "fm" REq 8; CVal "pred" REq 3; CVal "succ" REq 3; CVal "func3" REq 0; CVal "opcode" REq 0xf];
   mk_row "ecall" f_Inst32Format [CVal "bits" REq 0; CVal "opcode" REq 0x73];
   mk_row "ebreak" f_Inst32Format [CVal "bits" REq 0x2000; CVal "opcode" REq 0x73];
   mk_row "fencei" f_IType [CVal "func3" REq 1; CVal "opcode" REq 0xf];
   mk_row "mul" f_RType [CVal "func7" REq 1; CVal "func3" REq 0; CVal "opcode" REq 0x33];
   mk_row "mulh" f_RType [CVal "func7" REq 1; CVal "func3" REq 1; CVal "opcode" REq 0x33];
   mk_row "mulhsu" f_RType [CVal "func7" REq 1; CVal "func3" REq 2; CVal "opcode" REq 0x33];
   mk_row "mulhu" f_RType [CVal "func7" REq 1; CVal "func3" REq 3; CVal "opcode" REq 0x33];
   mk_row "div" f_RType [CVal "func7" REq 1; CVal "func3" REq 4; CVal "opcode" REq 0x33];
   mk_row "divu" f_RType [CVal "func7" REq 1; CVal "func3" REq 5; CVal "opcode" REq 0x33];
   mk_row "rem" f_RType [CVal "func7" REq 1; CVal "func3" REq 6; CVal "opcode" REq 0x33];
   mk_row "remu" f_RType [CVal "func7" REq 1; CVal "func3" REq 7; CVal "opcode" REq 0x33];
   mk_row "mulw" f_RType [CVal "func7" REq 1; CVal "func3" REq 0; CVal "opcode" REq 0x3b];
   mk_row "divw" f_RType [CVal "func7" REq 1; CVal "func3" REq 4; CVal "opcode" REq 0x3b];
   mk_row "divuw" f_RType [CVal "func7" REq 1; CVal "func3" REq 5; CVal "opcode" REq 0x3b];
   mk_row "remw" f_RType [CVal "func7" REq 1; CVal "func3" REq 6; CVal "opcode" REq 0x3b];
   mk_row "remuw" f_RType [CVal "func7" REq 1; CVal "func3" REq 7; CVal "opcode" REq 0x3b];
   mk_row "lrw" f_AType [CVal "func5" REq 2; CVal "rs2" REq 0; CVal "func3" REq 2; CVal "opcode" REq 0x2f];
   mk_row "scw" f_AType [CVal "func5" REq 3; CVal "func3" REq 2; CVal "opcode" REq 0x2f];
   mk_row "amoswapw" f_AType [CVal "func5" REq 1; CVal "func3" REq 2; CVal "opcode" REq 0x2f];
   mk_row "amoaddw" f_AType [CVal "func5" REq 0; CVal "func3" REq 2; CVal "opcode" REq 0x2f];
   mk_row "amoxorw" f_AType [CVal "func5" REq 4; CVal "func3" REq 2; CVal "opcode" REq 0x2f];
   mk_row "amoandw" f_AType [CVal "func5" REq 0xc; CVal "func3" REq 2; CVal "opcode" REq 0x2f];
   mk_row "amoorw" f_AType [CVal "func5" REq 8; CVal "func3" REq 2; CVal "opcode" REq 0x2f];
   mk_row "amominw" f_AType [CVal "func5" REq 0x10; CVal "func3" REq 2; CVal "opcode" REq 0x2f];
   mk_row "amomaxw" f_AType [CVal "func5" REq 0x14; CVal "func3" REq 2; CVal "opcode" REq 0x2f];
   mk_row "amominuw" f_AType [CVal "func5" REq 0x18; CVal "func3" REq 2; CVal "opcode" REq 0x2f];
   mk_row "amomaxuw" f_AType [CVal "func5" REq 0x1c; CVal "func3" REq 2; CVal "opcode" REq 0x2f];
   mk_row "lrd" f_AType [CVal "func5" REq 2; CVal "rs2" REq 0; CVal "func3" REq 3; CVal "opcode" REq 0x2f];
   mk_row "scd" f_AType [CVal "func5" REq 3; CVal "func3" REq 3; CVal "opcode" REq 0x2f];
   mk_row "amoswapd" f_AType [CVal "func5" REq 1; CVal "func3" REq 3; CVal "opcode" REq 0x2f];
   mk_row "amoaddd" f_AType [CVal "func5" REq 0; CVal "func3" REq 3; CVal "opcode" REq 0x2f];
   mk_row "amoxord" f_AType [CVal "func5" REq 4; CVal "func3" REq 3; CVal "opcode" REq 0x2f];
   mk_row "amoandd" f_AType [CVal "func5" REq 0xc; CVal "func3" REq 3; CVal "opcode" REq 0x2f];
   mk_row "amoord" f_AType [CVal "func5" REq 8; CVal "func3" REq 3; CVal "opcode" REq 0x2f];
   mk_row "amomind" f_AType [CVal "func5" REq 0x10; CVal "func3" REq 3; CVal "opcode" REq 0x2f];
   mk_row "amomaxd" f_AType [CVal "func5" REq 0x14; CVal "func3" REq 3; CVal "opcode" REq 0x2f];
   mk_row "amominud" f_AType [CVal "func5" REq 0x18; CVal "func3" REq 3; CVal "opcode" REq 0x2f];
   mk_row "amomaxud" f_AType [CVal "func5" REq 0x1c; CVal "func3" REq 3; CVal "opcode" REq 0x2f];
   mk_row "flw" f_IType [CVal "func3" REq 2; CVal "opcode" REq 7];
   mk_row "fsw" f_SType [CVal "func3" REq 2; CVal "opcode" REq 0x27];
   mk_row "fmadd_s" f_R4Type [CVal "func2" REq 0; CVal "opcode" REq 0x43];
   mk_row "fmsub_s" f_R4Type [CVal "func2" REq 0; CVal "opcode" REq 0x47];
   mk_row "fnmsub_s" f_R4Type [CVal "func2" REq 0; CVal "opcode" REq 0x4b];
   mk_row "fnmadd_s" f_R4Type [CVal "func2" REq 0; CVal "opcode" REq 0x4f];
   mk_row "fadd_s" f_RType [CVal "func7" REq 0; CVal "opcode" REq 0x53];
   mk_row "fsub_s" f_RType [CVal "func7" REq 4; CVal "opcode" REq 0x53];
   mk_row "fmul_s" f_RType [CVal "func7" REq 8; CVal "opcode" REq 0x53];
   mk_row "fdiv_s" f_RType [CVal "func7" REq 0xc; CVal "opcode" REq 0x53];
   mk_row "fsqrt_s" f_RType [CVal "func7" REq 0x2c; CVal "rs2" REq 0; CVal "opcode" REq 0x53];
   mk_row "fsgnj_s" f_RType [CVal "func7" REq 0x10; CVal "func3" REq 0; CVal "opcode" REq 0x53];
   mk_row "fsgnjn_s" f_RType [CVal "func7" REq 0x10; CVal "func3" REq 1; CVal "opcode" REq 0x53];
   mk_row "fsgnjx_s" f_RType [CVal "func7" REq 0x10; CVal "func3" REq 2; CVal "opcode" REq 0x53];
   mk_row "fmin_s" f_RType [CVal "func7" REq 0x14; CVal "func3" REq 0; CVal "opcode" REq 0x53];
   mk_row "fmax_s" f_RType [CVal "func7" REq 0x14; CVal "func3" REq 1; CVal "opcode" REq 0x53];
   mk_row "fcvt_ws" f_RType [CVal "func7" REq 0x60; CVal "rs2" REq 0; CVal "opcode" REq 0x53];
   mk_row "fcvt_wus" f_RType [CVal "func7" REq 0x60; CVal "rs2" REq 1; CVal "opcode" REq 0x53];
   mk_row "fmv_xw" f_RType [CVal "func7" REq 0x70; CVal "rs2" REq 0; CVal "func3" REq 0; CVal "opcode" REq 0x53];
   mk_row "fcmpeq_s" f_RType [CVal "func7" REq 0x50; CVal "func3" REq 2; CVal "opcode" REq 0x53];
   mk_row "fcmplt_s" f_RType [CVal "func7" REq 0x50; CVal "func3" REq 1; CVal "opcode" REq 0x53];
   mk_row "fcmple_s" f_RType [CVal "func7" REq 0x50; CVal "func3" REq 0; CVal "opcode" REq 0x53];
   mk_row "fclass_s" f_RType [CVal "func7" REq 0x70; CVal "rs2" REq 0; CVal "func3" REq 1; CVal "opcode" REq 0x53];
   mk_row "fcvt_sw" f_RType [CVal "func7" REq 0x68; CVal "rs2" REq 0; CVal "opcode" REq 0x53];
   mk_row "fcvt_swu" f_RType [CVal "func7" REq 0x68; CVal "rs2" REq 1; CVal "opcode" REq 0x53];
   mk_row "fmv_wx" f_RType [CVal "func7" REq 0x78; CVal "rs2" REq 0; CVal "func3" REq 0; CVal "opcode" REq 0x53];
   mk_row "fcvt_ls" f_RType [CVal "func7" REq 0x60; CVal "rs2" REq 2; CVal "opcode" REq 0x53];
   mk_row "fcvt_lus" f_RType [CVal "func7" REq 0x60; CVal "rs2" REq 3; CVal "opcode" REq 0x53];
   mk_row "fcvt_sl" f_RType [CVal "func7" REq 0x68; CVal "rs2" REq 2; CVal "opcode" REq 0x53];
   mk_row "fcvt_slu" f_RType [CVal "func7" REq 0x68; CVal "rs2" REq 3; CVal "opcode" REq 0x53];
   mk_row "fld" f_IType [CVal "func3" REq 3; CVal "opcode" REq 7];
   mk_row "fsd" f_SType [CVal "func3" REq 3; CVal "opcode" REq 0x27];
   mk_row "fmadd_d" f_R4Type [CVal "func2" REq 1; CVal "opcode" REq 0x43];
   mk_row "fmsub_d" f_R4Type [CVal "func2" REq 1; CVal "opcode" REq 0x47];
   mk_row "fnmsub_d" f_R4Type [CVal "func2" REq 1; CVal "opcode" REq 0x4b];
   mk_row "fnmadd_d" f_R4Type [CVal "func2" REq 1; CVal "opcode" REq 0x4f];
   mk_row "fadd_d" f_RType [CVal "func7" REq 1; CVal "opcode" REq 0x53];
   mk_row "fsub_d" f_RType [CVal "func7" REq 5; CVal "opcode" REq 0x53];
   mk_row "fmul_d" f_RType [CVal "func7" REq 9; CVal "opcode" REq 0x53];
   mk_row "fdiv_d" f_RType [CVal "func7" REq 0xd; CVal "opcode" REq 0x53];
   mk_row "fsqrt_d" f_RType [CVal "func7" REq 0x2d; CVal "rs2" REq 0; CVal "opcode" REq 0x53];
   mk_row "fsgnj_d" f_RType [CVal "func7" REq 0x11; CVal "func3" REq 0; CVal "opcode" REq 0x53];
   mk_row "fsgnjn_d" f_RType [CVal "func7" REq 0x11; CVal "func3" REq 1; CVal "opcode" REq 0x53];
   mk_row "fsgnjx_d" f_RType [CVal "func7" REq 0x11; CVal "func3" REq 2; CVal "opcode" REq 0x53];
   mk_row "fmin_d" f_RType [CVal "func7" REq 0x15; CVal "func3" REq 0; CVal "opcode" REq 0x53];
   mk_row "fmax_d" f_RType [CVal "func7" REq 0x15; CVal "func3" REq 1; CVal "opcode" REq 0x53];
   mk_row "fcvt_sd" f_RType [CVal "func7" REq 0x20; CVal "rs2" REq 1; CVal "opcode" REq 0x53];
   mk_row "fcvt_ds" f_RType [CVal "func7" REq 0x21; CVal "rs2" REq 0; CVal "opcode" REq 0x53];
   mk_row "fcmpeq_d" f_RType [CVal "func7" REq 0x51; CVal "func3" REq 2; CVal "opcode" REq 0x53];
   mk_row "fcmplt_d" f_RType [CVal "func7" REq 0x51; CVal "func3" REq 1; CVal "opcode" REq 0x53];
   mk_row "fcmple_d" f_RType [CVal "func7" REq 0x51; CVal "func3" REq 0; CVal "opcode" REq 0x53];
   mk_row "fclass_d" f_RType [CVal "func7" REq 0x71; CVal "rs2" REq 0; CVal "func3" REq 1; CVal "opcode" REq 0x53];
   mk_row "fcvt_wd" f_RType [CVal "func7" REq 0x61; CVal "rs2" REq 0; CVal "opcode" REq 0x53];
   mk_row "fcvt_wud" f_RType [CVal "func7" REq 0x61; CVal "rs2" REq 1; CVal "opcode" REq 0x53];
   mk_row "fcvt_dw" f_RType [CVal "func7" REq 0x69; CVal "rs2" REq 0; CVal "opcode" REq 0x53];
   mk_row "fcvt_dwu" f_RType [CVal "func7" REq 0x69; CVal "rs2" REq 1; CVal "opcode" REq 0x53];
   mk_row "fcvt_ld" f_RType [CVal "func7" REq 0x61; CVal "rs2" REq 2; CVal "opcode" REq 0x53];
   mk_row "fcvt_lud" f_RType [CVal "func7" REq 0x61; CVal "rs2" REq 3; CVal "opcode" REq 0x53];
   mk_row "fcvt_dl" f_RType [CVal "func7" REq 0x69; CVal "rs2" REq 2; CVal "opcode" REq 0x53];
   mk_row "fcvt_dlu" f_RType [CVal "func7" REq 0x69; CVal "rs2" REq 3; CVal "opcode" REq 0x53];
   mk_row "fmv_xd" f_RType [CVal "func7" REq 0x71; CVal "rs2" REq 0; CVal "func3" REq 0; CVal "opcode" REq 0x53];
   mk_row "fmv_dx" f_RType [CVal "func7" REq 0x79; CVal "rs2" REq 0; CVal "func3" REq 0; CVal "opcode" REq 0x53];
   mk_row "csrrw" f_IType [CVal "func3" REq 1; CVal "u_imm12" RNe 0xc00; CVal "rd" RNe 0; CVal "opcode" REq 0x73];
   mk_row "csrrs" f_IType [CVal "func3" REq 2; CVal "rs1" RNe 0; CVal "rd" RNe 0; CVal "opcode" REq 0x73];
   mk_row "csrrc" f_IType [CVal "func3" REq 3; CVal "rs1" RNe 0; CVal "rd" RNe 0; CVal "opcode" REq 0x73];
   mk_row "csrrs_nr" f_IType [CVal "func3" REq 2; CVal "rs1" RNe 0; CVal "rd" REq 0; CVal "opcode" REq 0x73];
   mk_row "csrrc_nr" f_IType [CVal "func3" REq 3; CVal "rs1" RNe 0; CVal "rd" REq 0; CVal "opcode" REq 0x73];
   mk_row "csrrw_nr" f_IType [CVal "func3" REq 1; CVal "u_imm12" RNe 0xc00; CVal "rd" REq 0; CVal "opcode" REq 0x73];
   mk_row "csrrs_nw" f_IType [CVal "func3" REq 2; CVal "rs1" REq 0; CVal "opcode" REq 0x73];
   mk_row "csrrc_nw" f_IType [CVal "func3" REq 3; CVal "rs1" REq 0; CVal "opcode" REq 0x73];
   mk_row "csrrwi" f_IType [CVal "func3" REq 5; CVal "rd" RNe 0; CVal "opcode" REq 0x73];
   mk_row "csrrsi" f_IType [CVal "func3" REq 6; CVal "rs1" RNe 0; CVal "rd" RNe 0; CVal "opcode" REq 0x73];
   mk_row "csrrci" f_IType [CVal "func3" REq 7; CVal "rs1" RNe 0; CVal "rd" RNe 0; CVal "opcode" REq 0x73];
   mk_row "csrrsi_nr" f_IType [CVal "func3" REq 6; CVal "rs1" RNe 0; CVal "rd" REq 0; CVal "opcode" REq 0x73];
   mk_row "csrrci_nr" f_IType [CVal "func3" REq 7; CVal "rs1" RNe 0; CVal "rd" REq 0; CVal "opcode" REq 0x73];
   mk_row "csrrwi_nr" f_IType [CVal "func3" REq 5; CVal "rd" REq 0; CVal "opcode" REq 0x73];
   mk_row "csrrsi_nw" f_IType [CVal "func3" REq 6; CVal "rs1" REq 0; CVal "opcode" REq 0x73];
   mk_row "csrrci_nw" f_IType [CVal "func3" REq 7; CVal "rs1" REq 0; CVal "opcode" REq 0x73];
   mk_row "unimp" f_IType [CVal "func3" REq 1; CVal "u_imm12" REq 0xc00; CVal "rd" REq 0; CVal "rs1" REq 0; CVal "opcode" REq 0x73];
   mk_row "uret" f_Inst32Format [CVal "bits" REq 0x4000; CVal "opcode" REq 0x73];
   mk_row "sret" f_Inst32Format [CVal "bits" REq 0x204000; CVal "opcode" REq 0x73];
   mk_row "mret" f_Inst32Format [CVal "bits" REq 0x604000; CVal "opcode" REq 0x73];
   mk_row "wfi" f_Inst32Format [CVal "bits" REq 0x20a000; CVal "opcode" REq 0x73];
   mk_row "sfence_vma_zz" f_RType [CVal "func7" REq 9; CVal "rs2" REq 0; CVal "rs1" REq 0; CVal "func3" REq 0; CVal "rd" REq 0; CVal "opcode" REq 0x73];
   mk_row "sfence_vma_zn" f_RType [CVal "func7" REq 9; CVal "rs2" RNe 0; CVal "rs1" REq 0; CVal "func3" REq 0; CVal "rd" REq 0; CVal "opcode" REq 0x73];
   mk_row "sfence_vma_nz" f_RType [CVal "func7" REq 9; CVal "rs2" REq 0; CVal "rs1" RNe 0; CVal "func3" REq 0; CVal "rd" REq 0; CVal "opcode" REq 0x73];
   mk_row "sfence_vma_nn" f_RType [CVal "func7" REq 9; CVal "rs2" RNe 0; CVal "rs1" RNe 0; CVal "func3" REq 0; CVal "rd" REq 0; CVal "opcode" REq 0x73]].

(** riscv64g.bin_fmt:226-262, instruction group RiscVGHints32. *)
Definition g_RiscVGHints32 : list row := [
   mk_row "lui_hint" f_UType [CVal "opcode" REq 0x37; CVal "rd" REq 0];
   mk_row "auipc_hint" f_UType [CVal "opcode" REq 0x17; CVal "rd" REq 0];
   mk_row "addi_hint1" f_IType [CVal "func3" REq 0; CVal "opcode" REq 0x13; CVal "rd" REq 0; CVal "rs1" RNe 0];
   mk_row "addi_hint2" f_IType [CVal "func3" REq 0; CVal "opcode" REq 0x13; CVal "rd" REq 0; CVal "imm12" RNe 0];
   mk_row "slti_hint" f_IType [CVal "func3" REq 2; CVal "opcode" REq 0x13; CVal "rd" REq 0];
   mk_row "sltiu_hint" f_IType [CVal "func3" REq 3; CVal "opcode" REq 0x13; CVal "rd" REq 0];
   mk_row "xori_hint" f_IType [CVal "func3" REq 4; CVal "rd" REq 0; CVal "opcode" REq 0x13];
   mk_row "ori_hint" f_IType [CVal "func3" REq 6; CVal "rd" REq 0; CVal "opcode" REq 0x13];
   mk_row "andi_hint" f_IType [CVal "func3" REq 7; CVal "opcode" REq 0x13; CVal "rd" REq 0];
   mk_row "srli_hint" f_RType [CVal "func7" REq 0; CVal "func3" REq 5; CVal "rd" REq 0; CVal "opcode" REq 0x13];
   mk_row "slt_hint" f_RType [CVal "func7" REq 0; CVal "func3" REq 2; CVal "rd" REq 0; CVal "opcode" REq 0x33];
   mk_row "slli_semihost" f_RType [CVal "func7" REq 0; CVal "func3" REq 1; CVal "rd" REq 0; CVal "rs1" REq 0; CVal "r_uimm5" REq 0x1f; CVal "opcode" REq 0x13];
   mk_row "slli_hint1" f_RType [CVal "func7" REq 0; CVal "func3" REq 1; CVal "rd" REq 0; CVal "rs1" RNe 0; CVal "opcode" REq 0x13];
   mk_row "slli_hint2" f_RType [CVal "func7" REq 0; CVal "func3" REq 1; CVal "rd" REq 0; CVal "r_uimm5" RNe 0x1f; CVal "opcode" REq 0x13];
   mk_row "srai_semihost" f_RType [CVal "func7" REq 0x20; CVal "func3" REq 5; CVal "rd" REq 0; CVal "rs1" REq 0; CVal "r_uimm5" REq 7; CVal "opcode" REq 0x13];
   mk_row "srai_hint1" f_RType [CVal "func7" REq 0x20; CVal "func3" REq 5; CVal "rd" REq 0; CVal "rs1" RNe 0; CVal "opcode" REq 0x13];
   mk_row "srai_hint2" f_RType [CVal "func7" REq 0x20; CVal "func3" REq 5; CVal "rd" REq 0; CVal "r_uimm5" RNe 7; CVal "opcode" REq 0x13];
   mk_row "add_hint1" f_RType [CVal "func7" REq 0; CVal "func3" REq 0; CVal "rd" REq 0; CVal "rs1" RNe 0; CVal "opcode" REq 0x33];
   mk_row "add_hint2" f_RType [CVal "func7" REq 0; CVal "func3" REq 0; CVal "rd" REq 0; CVal "rs1" REq 0; CVal "rs2" RGt 5; CVal "opcode" REq 0x33];
   mk_row "add_hint3" f_RType [CVal "func7" REq 0; CVal "func3" REq 0; CVal "rd" REq 0; CVal "rs1" REq 0; CVal "rs2" RLt 2; CVal "opcode" REq 0x33];
   mk_row "sub_hint" f_RType [CVal "func7" REq 0x20; CVal "func3" REq 0; CVal "rd" REq 0; CVal "opcode" REq 0x33];
   mk_row "sll_hint" f_RType [CVal "func7" REq 0; CVal "func3" REq 1; CVal "rd" REq 0; CVal "opcode" REq 0x33];
   mk_row "sltu_hint" f_RType [CVal "func7" REq 0; CVal "func3" REq 3; CVal "rd" REq 0; CVal "opcode" REq 0x33];
   mk_row "xor_hint" f_RType [CVal "func7" REq 0; CVal "func3" REq 4; CVal "rd" REq 0; CVal "opcode" REq 0x33];
   mk_row "srl_hint" f_RType [CVal "func7" REq 0; CVal "func3" REq 5; CVal "rd" REq 0; CVal "opcode" REq 0x33];
   mk_row "sra_hint" f_RType [CVal "func7" REq 0x20; CVal "func3" REq 5; CVal "rd" REq 0; CVal "opcode" REq 0x33];
   mk_row "or_hint" f_RType [CVal "func7" REq 0; CVal "func3" REq 6; CVal "rd" REq 0; CVal "opcode" REq 0x33];
   mk_row "and_hint" f_RType [CVal "func7" REq 0; CVal "func3" REq 7; CVal "rd" REq 0; CVal "opcode" REq 0x33];
   mk_row "fence_hint1" f_Fence [CVal "func3" REq 0; CVal "rd" REq 0; CVal "rs1" RNe 0; CVal "fm" REq 0; CVal "pred" REq 0; CVal "opcode" REq 0xf];
   mk_row "fence_hint2" f_Fence [CVal "func3" REq 0; CVal "rd" REq 0; CVal "rs1" RNe 0; CVal "fm" REq 0; CVal "succ" REq 0; CVal "opcode" REq 0xf];
   mk_row "fence_hint3" f_Fence [CVal "func3" REq 0; CVal "rd" RNe 0; CVal "rs1" REq 0; CVal "fm" REq 0; CVal "pred" REq 0; CVal "opcode" REq 0xf];
   mk_row "fence_hint4" f_Fence [CVal "func3" REq 0; CVal "rd" RNe 0; CVal "rs1" REq 0; CVal "fm" REq 0; CVal "succ" REq 0; CVal "opcode" REq 0xf];
   mk_row "fence_hint5" f_Fence [CVal "func3" REq 0; CVal "rd" REq 0; CVal "rs1" REq 0; CVal "fm" REq 0; CVal "pred" REq 0; CVal "succ" RNe 0; CVal "opcode" REq 0xf];
   mk_row "fence_hint6" f_Fence [CVal "func3" REq 0; CVal "rd" REq 0; CVal "rs1" REq 0; CVal "fm" REq 0; CVal "succ" REq 0; CVal "opcode" REq 0xf];
   mk_row "fence_hint7" f_Fence [CVal "func3" REq 0; CVal "rd" RNe 0; CVal "rs1" REq 0; CVal "fm" REq 0; CVal "pred" RNe 1; CVal "succ" REq 0; CVal "opcode" REq 0xf]].

(** riscv32g.bin_fmt:258-295, instruction group RiscVCInstBase16. *)
Definition g_RiscVCInstBase16 : list row := [
   mk_row "caddi4spn" f_CIW [CVal "func3" REq 0; CVal "op" REq 0; CVal "imm8" RNe 0];
   mk_row "cfld" f_CL [CVal "func3" REq 1; CVal "op" REq 0];
   mk_row "clw" f_CL [CVal "func3" REq 2; CVal "op" REq 0];
   mk_row "cflw" f_CL [CVal "func3" REq 3; CVal "op" REq 0];
   mk_row "cfsd" f_CS [CVal "func3" REq 5; CVal "op" REq 0];
   mk_row "csw" f_CS [CVal "func3" REq 6; CVal "op" REq 0];
   mk_row "cfsw" f_CS [CVal "func3" REq 7; CVal "op" REq 0];
   mk_row "cnop" f_CI [CVal "func3" REq 0; CVal "imm1" REq 0; CVal "rs1" REq 0; CVal "imm5" REq 0; CVal "op" REq 1];
   mk_row "caddi" f_CI [CVal "func3" REq 0; CVal "imm6" RNe 0; CVal "rd" RNe 0; CVal "op" REq 1];
   mk_row "cjal" f_CJ [CVal "func3" REq 1; CVal "op" REq 1];
   mk_row "cli" f_CI [CVal "func3" REq 2; CVal "rd" RNe 0; CVal "op" REq 1];
   mk_row "caddi16sp" f_CI [CVal "func3" REq 3; CVal "rd" REq 2; CVal "op" REq 1];
   mk_row "clui" f_CI [CVal "func3" REq 3; CVal "rd" RNe 0; CVal "rd" RNe 2; CVal "op" REq 1];
   mk_row "csrli" f_CB [CVal "func3" REq 4; CVal "imm3" REq 0; CVal "op" REq 1];
   mk_row "csrai" f_CB [CVal "func3" REq 4; CVal "imm3" REq 1; CVal "op" REq 1];
   mk_row "candi" f_CB [CVal "func3" REq 4; CVal "func2" REq 2; CVal "op" REq 1];
   mk_row "csub" f_CA [CVal "func6" REq 0x23; CVal "func2" REq 0; CVal "op" REq 1];
   mk_row "cxor" f_CA [CVal "func6" REq 0x23; CVal "func2" REq 1; CVal "op" REq 1];
   mk_row "cor" f_CA [CVal "func6" REq 0x23; CVal "func2" REq 2; CVal "op" REq 1];
   mk_row "cand" f_CA [CVal "func6" REq 0x23; CVal "func2" REq 3; CVal "op" REq 1];
   mk_row "cj" f_CJ [CVal "func3" REq 5; CVal "op" REq 1];
   mk_row "cbeqz" f_CB [CVal "func3" REq 6; CVal "op" REq 1];
   mk_row "cbnez" f_CB [CVal "func3" REq 7; CVal "op" REq 1];
   mk_row "cslli" f_CI [CVal "func3" REq 0; CVal "imm1" REq 0; CVal "rs1" RNe 0; CVal "op" REq 2];
   mk_row "cfldsp" f_CI [CVal "func3" REq 1; CVal "op" REq 2];
   mk_row "clwsp" f_CI [CVal "func3" REq 2; CVal "rd" RNe 0; CVal "op" REq 2];
   mk_row "cflwsp" f_CI [CVal "func3" REq 3; CVal "op" REq 2];
   mk_row "cjr" f_CR [CVal "func4" REq 8; CVal "rs1" RNe 0; CVal "rs2" REq 0; CVal "op" REq 2];
   mk_row "cmv" f_CR [CVal "func4" REq 8; CVal "rs1" RNe 0; CVal "rs2" RNe 0; CVal "op" REq 2];
   mk_row "cebreak" f_CR [CVal "func4" REq 9; CVal "rs1" REq 0; CVal "rs2" REq 0; CVal "op" REq 2];
   mk_row "cjalr" f_CR [CVal "func4" REq 9; CVal "rs1" RNe 0; CVal "rs2" REq 0; CVal "op" REq 2];
   mk_row "cadd" f_CR [CVal "func4" REq 9; CVal "rs1" RNe 0; CVal "rs2" RNe 0; CVal "op" REq 2];
   mk_row "cfsdsp" f_CSS [CVal "func3" REq 5; CVal "op" REq 2];
   mk_row "cswsp" f_CSS [CVal "func3" REq 6; CVal "op" REq 2];
   mk_row "cfswsp" f_CSS [CVal "func3" REq 7; CVal "op" REq 2];
   mk_row "cunimp" f_Inst16Format [CVal "func3" REq 0; CVal "bits" REq 0; CVal "op" REq 0]].

(** riscv32g.bin_fmt:297-305, instruction group RiscVCHints16. *)
Definition g_RiscVCHints16 : list row := [
   mk_row "cnop_hint" f_CI [CVal "func3" REq 0; CVal "imm6" RNe 0; CVal "rs1" REq 0; CVal "op" REq 1];
   mk_row "caddi_hint" f_CI [CVal "func3" REq 0; CVal "imm6" REq 0; CVal "rd" RNe 0; CVal "op" REq 1];
   mk_row "cli_hint" f_CI [CVal "func3" REq 2; CVal "rd" REq 0; CVal "op" REq 1];
   mk_row "clui_hint" f_CI [CVal "func3" REq 3; CVal "rd" REq 0; CVal "imm6" RNe 0; CVal "op" REq 1];
   mk_row "cmv_hint" f_CR [CVal "func4" REq 8; CVal "rs1" REq 0; CVal "rs2" RNe 0; CVal "op" REq 2];
   mk_row "cslli_hint" f_CI [CVal "func3" REq 0; CVal "imm6" RNe 0; CVal "rd" REq 0; CVal "op" REq 2];
   mk_row "cadd_hint" f_CR [CVal "func4" REq 9; CVal "rs1" REq 0; CVal "rs2" RNe 0; CVal "rs2" RNe 2; CVal "rs2" RNe 3; CVal "rs2" RNe 4; CVal "rs2" RNe 5; CVal "op" REq 2]].

(** riscv64g.bin_fmt:267-306, instruction group RiscVCInstBase16. *)
Definition g_RiscVCInstBase16_64 : list row := [
   mk_row "caddi4spn" f_CIW [CVal "func3" REq 0; CVal "op" REq 0; CVal "imm8" RNe 0];
   mk_row "cfld" f_CL [CVal "func3" REq 1; CVal "op" REq 0];
   mk_row "clw" f_CL [CVal "func3" REq 2; CVal "op" REq 0];
   mk_row "cld" f_CL [CVal "func3" REq 3; CVal "op" REq 0];
   mk_row "cfsd" f_CS [CVal "func3" REq 5; CVal "op" REq 0];
   mk_row "csw" f_CS [CVal "func3" REq 6; CVal "op" REq 0];
   mk_row "csd" f_CS [CVal "func3" REq 7; CVal "op" REq 0];
   mk_row "cnop" f_CI [CVal "func3" REq 0; CVal "imm1" REq 0; CVal "rs1" REq 0; CVal "imm5" REq 0; CVal "op" REq 1];
   mk_row "caddi" f_CI [CVal "func3" REq 0; CVal "imm6" RNe 0; CVal "rd" RNe 0; CVal "op" REq 1];
   mk_row "caddiw" f_CI [CVal "func3" REq 1; CVal "rs1" RNe 0; CVal "op" REq 1];
   mk_row "cli" f_CI [CVal "func3" REq 2; CVal "rd" RNe 0; CVal "op" REq 1];
   mk_row "caddi16sp" f_CI [CVal "func3" REq 3; CVal "rd" REq 2; CVal "ci_imm10" RNe 0; CVal "op" REq 1];
   mk_row "clui" f_CI [CVal "func3" REq 3; CVal "rd" RNe 0; CVal "rd" RNe 2; CVal "imm18" RNe 0; CVal "op" REq 1];
   mk_row "csrli" f_CB [CVal "func3" REq 4; CVal "func2" REq 0; CVal "op" REq 1; CVal "shamt" RNe 0];
   mk_row "csrai" f_CB [CVal "func3" REq 4; CVal "func2" REq 1; CVal "op" REq 1; CVal "shamt" RNe 0];
   mk_row "candi" f_CB [CVal "func3" REq 4; CVal "func2" REq 2; CVal "op" REq 1];
   mk_row "csub" f_CA [CVal "func6" REq 0x23; CVal "func2" REq 0; CVal "op" REq 1];
   mk_row "cxor" f_CA [CVal "func6" REq 0x23; CVal "func2" REq 1; CVal "op" REq 1];
   mk_row "cor" f_CA [CVal "func6" REq 0x23; CVal "func2" REq 2; CVal "op" REq 1];
   mk_row "cand" f_CA [CVal "func6" REq 0x23; CVal "func2" REq 3; CVal "op" REq 1];
   mk_row "csubw" f_CA [CVal "func6" REq 0x27; CVal "func2" REq 0; CVal "op" REq 1];
   mk_row "caddw" f_CA [CVal "func6" REq 0x27; CVal "func2" REq 1; CVal "op" REq 1];
   mk_row "cj" f_CJ [CVal "func3" REq 5; CVal "op" REq 1];
   mk_row "cbeqz" f_CB [CVal "func3" REq 6; CVal "op" REq 1];
   mk_row "cbnez" f_CB [CVal "func3" REq 7; CVal "op" REq 1];
   mk_row "cslli" f_CI [CVal "func3" REq 0; CVal "rs1" RNe 0; CVal "uimm6" RNe 0; CVal "op" REq 2];
   mk_row "cfldsp" f_CI [CVal "func3" REq 1; CVal "op" REq 2];
   mk_row "clwsp" f_CI [CVal "func3" REq 2; CVal "rd" RNe 0; CVal "op" REq 2];
   mk_row "cldsp" f_CI [CVal "func3" REq 3; CVal "rd" RNe 0; CVal "op" REq 2];
   mk_row "cjr" f_CR [CVal "func4" REq 8; CVal "rs1" RNe 0; CVal "rs2" REq 0; CVal "op" REq 2];
   mk_row "cmv" f_CR [CVal "func4" REq 8; CVal "rs1" RNe 0; CVal "rs2" RNe 0; CVal "op" REq 2];
   mk_row "cebreak" f_CR [CVal "func4" REq 9; CVal "rs1" REq 0; CVal "rs2" REq 0; CVal "op" REq 2];
   mk_row "cjalr" f_CR [CVal "func4" REq 9; CVal "rs1" RNe 0; CVal "rs2" REq 0; CVal "op" REq 2];
   mk_row "cadd" f_CR [CVal "func4" REq 9; CVal "rs1" RNe 0; CVal "rs2" RNe 0; CVal "op" REq 2];
   mk_row "cfsdsp" f_CSS [CVal "func3" REq 5; CVal "op" REq 2];
   mk_row "cswsp" f_CSS [CVal "func3" REq 6; CVal "op" REq 2];
   mk_row "csdsp" f_CSS [CVal "func3" REq 7; CVal "op" REq 2];
   mk_row "cunimp" f_Inst16Format [CVal "func3" REq 0; CVal "bits" REq 0; CVal "op" REq 0]].

(** riscv64g.bin_fmt:308-316, instruction group RiscVCHints16. *)
Definition g_RiscVCHints16_64 : list row := [
   mk_row "cnop_hint" f_CI [CVal "func3" REq 0; CVal "imm6" RNe 0; CVal "rs1" REq 0; CVal "op" REq 1];
   mk_row "caddi_hint" f_CI [CVal "func3" REq 0; CVal "imm6" REq 0; CVal "rd" RNe 0; CVal "op" REq 1];
   mk_row "cli_hint" f_CI [CVal "func3" REq 2; CVal "rd" REq 0; CVal "op" REq 1];
   mk_row "clui_hint" f_CI [CVal "func3" REq 3; CVal "rd" REq 0; CVal "imm6" RNe 0; CVal "op" REq 1];
   mk_row "cmv_hint" f_CR [CVal "func4" REq 8; CVal "rs1" REq 0; CVal "rs2" RNe 0; CVal "op" REq 2];
   mk_row "cslli_hint" f_CI [CVal "func3" REq 0; CVal "imm6" RNe 0; CVal "rd" REq 0; CVal "op" REq 2];
   mk_row "cadd_hint" f_CR [CVal "func4" REq 9; CVal "rs1" REq 0; CVal "rs2" RNe 0; CVal "rs2" RNe 2; CVal "rs2" RNe 3; CVal "rs2" RNe 4; CVal "rs2" RNe 5; CVal "op" REq 2]].

(** riscv32zb.bin_fmt:15-19, instruction group RiscVZbaInst32. *)
Definition g_RiscVZbaInst32 : list row := [
   mk_row "sh1add" f_RType [CVal "func7" REq 0x10; CVal "func3" REq 2; CVal "opcode" REq 0x33];
   mk_row "sh2add" f_RType [CVal "func7" REq 0x10; CVal "func3" REq 4; CVal "opcode" REq 0x33];
   mk_row "sh3add" f_RType [CVal "func7" REq 0x10; CVal "func3" REq 6; CVal "opcode" REq 0x33]].

(** riscv32zb.bin_fmt:21-38, instruction group RiscVZbbInst32. *)
Definition g_RiscVZbbInst32 : list row := [
   mk_row "andn" f_RType [CVal "func7" REq 0x20; CVal "func3" REq 7; CVal "opcode" REq 0x33];
   mk_row "orn" f_RType [CVal "func7" REq 0x20; CVal "func3" REq 6; CVal "opcode" REq 0x33];
   mk_row "xnor" f_RType [CVal "func7" REq 0x20; CVal "func3" REq 4; CVal "opcode" REq 0x33];
   mk_row "clz" f_RType [CVal "func7" REq 0x30; CVal "rs2" REq 0; CVal "func3" REq 1; CVal "opcode" REq 0x13];
   mk_row "ctz" f_RType [CVal "func7" REq 0x30; CVal "rs2" REq 1; CVal "func3" REq 1; CVal "opcode" REq 0x13];
   mk_row "cpop" f_RType [CVal "func7" REq 0x30; CVal "rs2" REq 2; CVal "func3" REq 1; CVal "opcode" REq 0x13];
   mk_row "max" f_RType [CVal "func7" REq 5; CVal "func3" REq 6; CVal "opcode" REq 0x33];
   mk_row "maxu" f_RType [CVal "func7" REq 5; CVal "func3" REq 7; CVal "opcode" REq 0x33];
   mk_row "min" f_RType [CVal "func7" REq 5; CVal "func3" REq 4; CVal "opcode" REq 0x33];
   mk_row "minu" f_RType [CVal "func7" REq 5; CVal "func3" REq 5; CVal "opcode" REq 0x33];
   mk_row "sext_b" f_RType [CVal "func7" REq 0x30; CVal "rs2" REq 4; CVal "func3" REq 1; CVal "opcode" REq 0x13];
   mk_row "sext_h" f_RType [CVal "func7" REq 0x30; CVal "rs2" REq 5; CVal "func3" REq 1; CVal "opcode" REq 0x13];
   mk_row "rol" f_RType [CVal "func7" REq 0x30; CVal "func3" REq 1; CVal "opcode" REq 0x33];
   mk_row "ror" f_RType [CVal "func7" REq 0x30; CVal "func3" REq 5; CVal "opcode" REq 0x33];
   mk_row "orcb" f_RType [CVal "func7" REq 0x14; CVal "rs2" REq 7; CVal "func3" REq 5; CVal "opcode" REq 0x13];
   mk_row "rev8" f_RType [CVal "func7" REq 0x34; CVal "rs2" REq 0x18; CVal "func3" REq 5; CVal "opcode" REq 0x13]].

(** riscv32zb.bin_fmt:40-42, instruction group RiscVZbbInst32Only. *)
Definition g_RiscVZbbInst32Only : list row := [
   mk_row "zext_h" f_RType [CVal "func7" REq 4; CVal "rs2" REq 0; CVal "func3" REq 4; CVal "opcode" REq 0x33]].

(** riscv32zb.bin_fmt:44-46, instruction group RiscVZbbImmInst32. *)
Definition g_RiscVZbbImmInst32 : list row := [
   mk_row "rori" f_RType [CVal "func7" REq 0x30; CVal "func3" REq 5; CVal "opcode" REq 0x13]].

(** riscv32zb.bin_fmt:48-52, instruction group RiscVZbcInst32. *)
Definition g_RiscVZbcInst32 : list row := [
   mk_row "clmul" f_RType [CVal "func7" REq 5; CVal "func3" REq 1; CVal "opcode" REq 0x33];
   mk_row "clmulh" f_RType [CVal "func7" REq 5; CVal "func3" REq 3; CVal "opcode" REq 0x33];
   mk_row "clmulr" f_RType [CVal "func7" REq 5; CVal "func3" REq 2; CVal "opcode" REq 0x33]].

(** riscv32zb.bin_fmt:54-59, instruction group RiscVZbsInst32. *)
Definition g_RiscVZbsInst32 : list row := [
   mk_row "bclr" f_RType [CVal "func7" REq 0x24; CVal "func3" REq 1; CVal "opcode" REq 0x33];
   mk_row "bext" f_RType [CVal "func7" REq 0x24; CVal "func3" REq 5; CVal "opcode" REq 0x33];
   mk_row "binv" f_RType [CVal "func7" REq 0x34; CVal "func3" REq 1; CVal "opcode" REq 0x33];
   mk_row "bset" f_RType [CVal "func7" REq 0x14; CVal "func3" REq 1; CVal "opcode" REq 0x33]].

(** riscv32zb.bin_fmt:61-66, instruction group RiscVZbsImmInst32. *)
Definition g_RiscVZbsImmInst32 : list row := [
   mk_row "bclri" f_RType [CVal "func7" REq 0x24; CVal "func3" REq 1; CVal "opcode" REq 0x13];
   mk_row "bexti" f_RType [CVal "func7" REq 0x24; CVal "func3" REq 5; CVal "opcode" REq 0x13];
   mk_row "binvi" f_RType [CVal "func7" REq 0x34; CVal "func3" REq 1; CVal "opcode" REq 0x13];
   mk_row "bseti" f_RType [CVal "func7" REq 0x14; CVal "func3" REq 1; CVal "opcode" REq 0x13]].

(** riscv64zb.bin_fmt:15-21, instruction group RiscVZbaInst64. *)
Definition g_RiscVZbaInst64 : list row := [
   mk_row "add_uw" f_RType [CVal "func7" REq 4; CVal "func3" REq 0; CVal "opcode" REq 0x3b];
   mk_row "sh1add_uw" f_RType [CVal "func7" REq 0x10; CVal "func3" REq 2; CVal "opcode" REq 0x3b];
   mk_row "sh2add_uw" f_RType [CVal "func7" REq 0x10; CVal "func3" REq 4; CVal "opcode" REq 0x3b];
   mk_row "sh3add_uw" f_RType [CVal "func7" REq 0x10; CVal "func3" REq 6; CVal "opcode" REq 0x3b];
   mk_row "slli_uw" f_RSType [CVal "func6" REq 2; CVal "func3" REq 1; CVal "opcode" REq 0x1b]].

(** riscv64zb.bin_fmt:23-32, instruction group RiscVZbbInst64. *)
Definition g_RiscVZbbInst64 : list row := [
   mk_row "clzw" f_RType [CVal "func7" REq 0x30; CVal "rs2" REq 0; CVal "func3" REq 1; CVal "opcode" REq 0x1b];
   mk_row "cpopw" f_RType [CVal "func7" REq 0x30; CVal "rs2" REq 2; CVal "func3" REq 1; CVal "opcode" REq 0x1b];
   mk_row "ctzw" f_RType [CVal "func7" REq 0x30; CVal "rs2" REq 1; CVal "func3" REq 1; CVal "opcode" REq 0x1b];
   mk_row "rolw" f_RType [CVal "func7" REq 0x30; CVal "func3" REq 1; CVal "opcode" REq 0x3b];
   mk_row "rori" f_RSType [CVal "func6" REq 0x18; CVal "func3" REq 5; CVal "opcode" REq 0x13];
   mk_row "roriw" f_RType [CVal "func7" REq 0x30; CVal "func3" REq 5; CVal "opcode" REq 0x1b];
   mk_row "rorw" f_RType [CVal "func7" REq 0x30; CVal "func3" REq 5; CVal "opcode" REq 0x3b];
   mk_row "zext_h" f_RType [CVal "func7" REq 4; CVal "rs2" REq 0; CVal "func3" REq 4; CVal "opcode" REq 0x3b]].

(** riscv64zb.bin_fmt:34-39, instruction group RiscVZbsImmInst64. *)
Definition g_RiscVZbsImmInst64 : list row := [
   mk_row "bclri" f_RSType [CVal "func6" REq 0x12; CVal "func3" REq 1; CVal "opcode" REq 0x1b];
   mk_row "bexti" f_RSType [CVal "func6" REq 0x12; CVal "func3" REq 5; CVal "opcode" REq 0x1b];
   mk_row "binvi" f_RSType [CVal "func6" REq 0x1a; CVal "func3" REq 1; CVal "opcode" REq 0x1b];
   mk_row "bseti" f_RSType [CVal "func6" REq 0xa; CVal "func3" REq 1; CVal "opcode" REq 0x1b]].

(** riscv_vector.bin_fmt:18-510, instruction group RiscVVInst32. *)
Definition g_RiscVVInst32 : list row := [
   mk_row "vsetvli_xn" f_VConfig [CVal "rs1" RNe 0; CVal "func1" REq 0; CVal "func3" REq 7; CVal "opcode" REq 0x57];
   mk_row "vsetvli_nz" f_VConfig [CVal "rd" RNe 0; CVal "rs1" REq 0; CVal "func1" REq 0; CVal "func3" REq 7; CVal "opcode" REq 0x57];
   mk_row "vsetvli_zz" f_VConfig [CVal "rd" REq 0; CVal "rs1" REq 0; CVal "func1" REq 0; CVal "func3" REq 7; CVal "opcode" REq 0x57];
   mk_row "vsetivli" f_VConfig [CVal "func2" REq 3; CVal "func3" REq 7; CVal "opcode" REq 0x57];
   mk_row "vsetvl_xn" f_VConfig [CVal "rs1" RNe 0; CVal "func7" REq 0x40; CVal "func3" REq 7; CVal "opcode" REq 0x57];
   mk_row "vsetvl_nz" f_VConfig [CVal "rd" RNe 0; CVal "rs1" REq 0; CVal "func7" REq 0x40; CVal "func3" REq 7; CVal "opcode" REq 0x57];
   mk_row "vsetvl_zz" f_VConfig [CVal "rd" REq 0; CVal "rs1" REq 0; CVal "func7" REq 0x40; CVal "func3" REq 7; CVal "opcode" REq 0x57];
   mk_row "vle8" f_VMem [CVal "vm" REq 0; CVal "nf" REq 0; CVal "mew" REq 0; CVal "mop" REq 0; CVal "lumop" REq 0; CVal "width" REq 0; CVal "opcode" REq 7];
   mk_row "vle16" f_VMem [CVal "vm" REq 0; CVal "nf" REq 0; CVal "mew" REq 0; CVal "mop" REq 0; CVal "lumop" REq 0; CVal "width" REq 5; CVal "opcode" REq 7];
   mk_row "vle32" f_VMem [CVal "vm" REq 0; CVal "nf" REq 0; CVal "mew" REq 0; CVal "mop" REq 0; CVal "lumop" REq 0; CVal "width" REq 6; CVal "opcode" REq 7];
   mk_row "vle64" f_VMem [CVal "vm" REq 0; CVal "nf" REq 0; CVal "mew" REq 0; CVal "mop" REq 0; CVal "lumop" REq 0; CVal "width" REq 7; CVal "opcode" REq 7];
   mk_row "vle8_vm1" f_VMem [CVal "vm" REq 1; CVal "nf" REq 0; CVal "mew" REq 0; CVal "mop" REq 0; CVal "lumop" REq 0; CVal "width" REq 0; CVal "opcode" REq 7];
   mk_row "vle16_vm1" f_VMem [CVal "vm" REq 1; CVal "nf" REq 0; CVal "mew" REq 0; CVal "mop" REq 0; CVal "lumop" REq 0; CVal "width" REq 5; CVal "opcode" REq 7];
   mk_row "vle32_vm1" f_VMem [CVal "vm" REq 1; CVal "nf" REq 0; CVal "mew" REq 0; CVal "mop" REq 0; CVal "lumop" REq 0; CVal "width" REq 6; CVal "opcode" REq 7];
   mk_row "vle64_vm1" f_VMem [CVal "vm" REq 1; CVal "nf" REq 0; CVal "mew" REq 0; CVal "mop" REq 0; CVal "lumop" REq 0; CVal "width" REq 7; CVal "opcode" REq 7];
   mk_row "vlm" f_VMem [CVal "nf" REq 0; CVal "mew" REq 0; CVal "mop" REq 0; CVal "lumop" REq 0xb; CVal "width" REq 0; CVal "opcode" REq 7];
   mk_row "vle8ff" f_VMem [CVal "nf" REq 0; CVal "mew" REq 0; CVal "mop" REq 0; CVal "lumop" REq 0x10; CVal "width" REq 0; CVal "opcode" REq 7];
   mk_row "vle16ff" f_VMem [CVal "nf" REq 0; CVal "mew" REq 0; CVal "mop" REq 0; CVal "lumop" REq 0x10; CVal "width" REq 5; CVal "opcode" REq 7];
   mk_row "vle32ff" f_VMem [CVal "nf" REq 0; CVal "mew" REq 0; CVal "mop" REq 0; CVal "lumop" REq 0x10; CVal "width" REq 6; CVal "opcode" REq 7];
   mk_row "vle64ff" f_VMem [CVal "nf" REq 0; CVal "mew" REq 0; CVal "mop" REq 0; CVal "lumop" REq 0x10; CVal "width" REq 7; CVal "opcode" REq 7];
   mk_row "vl1re8" f_VMem [CVal "nf" REq 0; CVal "mop" REq 0; CVal "vm" REq 1; CVal "lumop" REq 8; CVal "width" REq 0; CVal "opcode" REq 7];
   mk_row "vl1re16" f_VMem [CVal "nf" REq 0; CVal "mop" REq 0; CVal "vm" REq 1; CVal "lumop" REq 8; CVal "width" REq 5; CVal "opcode" REq 7];
   mk_row "vl1re32" f_VMem [CVal "nf" REq 0; CVal "mop" REq 0; CVal "vm" REq 1; CVal "lumop" REq 8; CVal "width" REq 6; CVal "opcode" REq 7];
   mk_row "vl1re64" f_VMem [CVal "nf" REq 0; CVal "mop" REq 0; CVal "vm" REq 1; CVal "lumop" REq 8; CVal "width" REq 7; CVal "opcode" REq 7];
   mk_row "vl2re8" f_VMem [CVal "nf" REq 1; CVal "mop" REq 0; CVal "vm" REq 1; CVal "lumop" REq 8; CVal "width" REq 0; CVal "opcode" REq 7];
   mk_row "vl2re16" f_VMem [CVal "nf" REq 1; CVal "mop" REq 0; CVal "vm" REq 1; CVal "lumop" REq 8; CVal "width" REq 5; CVal "opcode" REq 7];
   mk_row "vl2re32" f_VMem [CVal "nf" REq 1; CVal "mop" REq 0; CVal "vm" REq 1; CVal "lumop" REq 8; CVal "width" REq 6; CVal "opcode" REq 7];
   mk_row "vl2re64" f_VMem [CVal "nf" REq 1; CVal "mop" REq 0; CVal "vm" REq 1; CVal "lumop" REq 8; CVal "width" REq 7; CVal "opcode" REq 7];
   mk_row "vl4re8" f_VMem [CVal "nf" REq 3; CVal "mop" REq 0; CVal "vm" REq 1; CVal "lumop" REq 8; CVal "width" REq 0; CVal "opcode" REq 7];
   mk_row "vl4re16" f_VMem [CVal "nf" REq 3; CVal "mop" REq 0; CVal "vm" REq 1; CVal "lumop" REq 8; CVal "width" REq 5; CVal "opcode" REq 7];
   mk_row "vl4re32" f_VMem [CVal "nf" REq 3; CVal "mop" REq 0; CVal "vm" REq 1; CVal "lumop" REq 8; CVal "width" REq 6; CVal "opcode" REq 7];
   mk_row "vl4re64" f_VMem [CVal "nf" REq 3; CVal "mop" REq 0; CVal "vm" REq 1; CVal "lumop" REq 8; CVal "width" REq 7; CVal "opcode" REq 7];
   mk_row "vl8re8" f_VMem [CVal "nf" REq 7; CVal "mop" REq 0; CVal "vm" REq 1; CVal "lumop" REq 8; CVal "width" REq 0; CVal "opcode" REq 7];
   mk_row "vl8re16" f_VMem [CVal "nf" REq 7; CVal "mop" REq 0; CVal "vm" REq 1; CVal "lumop" REq 8; CVal "width" REq 5; CVal "opcode" REq 7];
   mk_row "vl8re32" f_VMem [CVal "nf" REq 7; CVal "mop" REq 0; CVal "vm" REq 1; CVal "lumop" REq 8; CVal "width" REq 6; CVal "opcode" REq 7];
   mk_row "vl8re64" f_VMem [CVal "nf" REq 7; CVal "mop" REq 0; CVal "vm" REq 1; CVal "lumop" REq 8; CVal "width" REq 7; CVal "opcode" REq 7];
   mk_row "vlse8" f_VMem [CVal "nf" REq 0; CVal "mew" REq 0; CVal "mop" REq 2; CVal "width" REq 0; CVal "opcode" REq 7];
   mk_row "vlse16" f_VMem [CVal "nf" REq 0; CVal "mew" REq 0; CVal "mop" REq 2; CVal "width" REq 5; CVal "opcode" REq 7];
   mk_row "vlse32" f_VMem [CVal "nf" REq 0; CVal "mew" REq 0; CVal "mop" REq 2; CVal "width" REq 6; CVal "opcode" REq 7];
   mk_row "vlse64" f_VMem [CVal "nf" REq 0; CVal "mew" REq 0; CVal "mop" REq 2; CVal "width" REq 7; CVal "opcode" REq 7];
   mk_row "vluxei8" f_VMem [CVal "nf" REq 0; CVal "mew" REq 0; CVal "mop" REq 1; CVal "width" REq 0; CVal "opcode" REq 7];
   mk_row "vluxei16" f_VMem [CVal "nf" REq 0; CVal "mew" REq 0; CVal "mop" REq 1; CVal "width" REq 5; CVal "opcode" REq 7];
   mk_row "vluxei32" f_VMem [CVal "nf" REq 0; CVal "mew" REq 0; CVal "mop" REq 1; CVal "width" REq 6; CVal "opcode" REq 7];
   mk_row "vluxei64" f_VMem [CVal "nf" REq 0; CVal "mew" REq 0; CVal "mop" REq 1; CVal "width" REq 7; CVal "opcode" REq 7];
   mk_row "vloxei8" f_VMem [CVal "nf" REq 0; CVal "mew" REq 0; CVal "mop" REq 3; CVal "width" REq 0; CVal "opcode" REq 7];
   mk_row "vloxei16" f_VMem [CVal "nf" REq 0; CVal "mew" REq 0; CVal "mop" REq 3; CVal "width" REq 5; CVal "opcode" REq 7];
   mk_row "vloxei32" f_VMem [CVal "nf" REq 0; CVal "mew" REq 0; CVal "mop" REq 3; CVal "width" REq 6; CVal "opcode" REq 7];
   mk_row "vloxei64" f_VMem [CVal "nf" REq 0; CVal "mew" REq 0; CVal "mop" REq 3; CVal "width" REq 7; CVal "opcode" REq 7];
   mk_row "vlsege8" f_VMem [CVal "nf" RNe 0; CVal "mew" REq 0; CVal "mop" REq 0; CVal "lumop" REq 0; CVal "width" REq 0; CVal "opcode" REq 7];
   mk_row "vlsege16" f_VMem [CVal "nf" RNe 0; CVal "mew" REq 0; CVal "mop" REq 0; CVal "lumop" REq 0; CVal "width" REq 5; CVal "opcode" REq 7];
   mk_row "vlsege32" f_VMem [CVal "nf" RNe 0; CVal "mew" REq 0; CVal "mop" REq 0; CVal "lumop" REq 0; CVal "width" REq 6; CVal "opcode" REq 7];
   mk_row "vlsege64" f_VMem [CVal "nf" RNe 0; CVal "mew" REq 0; CVal "mop" REq 0; CVal "lumop" REq 0; CVal "width" REq 7; CVal "opcode" REq 7];
   mk_row "vlssege8" f_VMem [CVal "nf" RNe 0; CVal "mew" REq 0; CVal "mop" REq 2; CVal "width" REq 0; CVal "opcode" REq 7];
   mk_row "vlssege16" f_VMem [CVal "nf" RNe 0; CVal "mew" REq 0; CVal "mop" REq 2; CVal "width" REq 5; CVal "opcode" REq 7];
   mk_row "vlssege32" f_VMem [CVal "nf" RNe 0; CVal "mew" REq 0; CVal "mop" REq 2; CVal "width" REq 6; CVal "opcode" REq 7];
   mk_row "vlssege64" f_VMem [CVal "nf" RNe 0; CVal "mew" REq 0; CVal "mop" REq 2; CVal "width" REq 7; CVal "opcode" REq 7];
   mk_row "vluxsegei8" f_VMem [CVal "nf" RNe 0; CVal "mew" REq 0; CVal "mop" REq 1; CVal "width" REq 0; CVal "opcode" REq 7];
   mk_row "vluxsegei16" f_VMem [CVal "nf" RNe 0; CVal "mew" REq 0; CVal "mop" REq 1; CVal "width" REq 5; CVal "opcode" REq 7];
   mk_row "vluxsegei32" f_VMem [CVal "nf" RNe 0; CVal "mew" REq 0; CVal "mop" REq 1; CVal "width" REq 6; CVal "opcode" REq 7];
   mk_row "vluxsegei64" f_VMem [CVal "nf" RNe 0; CVal "mew" REq 0; CVal "mop" REq 1; CVal "width" REq 7; CVal "opcode" REq 7];
   mk_row "vloxsegei8" f_VMem [CVal "nf" RNe 0; CVal "mew" REq 0; CVal "mop" REq 3; CVal "width" REq 0; CVal "opcode" REq 7];
   mk_row "vloxsegei16" f_VMem [CVal "nf" RNe 0; CVal "mew" REq 0; CVal "mop" REq 3; CVal "width" REq 5; CVal "opcode" REq 7];
   mk_row "vloxsegei32" f_VMem [CVal "nf" RNe 0; CVal "mew" REq 0; CVal "mop" REq 3; CVal "width" REq 6; CVal "opcode" REq 7];
   mk_row "vloxsegei64" f_VMem [CVal "nf" RNe 0; CVal "mew" REq 0; CVal "mop" REq 3; CVal "width" REq 7; CVal "opcode" REq 7];
   mk_row "vse8" f_VMem [CVal "nf" REq 0; CVal "mew" REq 0; CVal "mop" REq 0; CVal "sumop" REq 0; CVal "width" REq 0; CVal "opcode" REq 0x27];
   mk_row "vse16" f_VMem [CVal "nf" REq 0; CVal "mew" REq 0; CVal "mop" REq 0; CVal "sumop" REq 0; CVal "width" REq 5; CVal "opcode" REq 0x27];
   mk_row "vse32" f_VMem [CVal "nf" REq 0; CVal "mew" REq 0; CVal "mop" REq 0; CVal "sumop" REq 0; CVal "width" REq 6; CVal "opcode" REq 0x27];
   mk_row "vse64" f_VMem [CVal "nf" REq 0; CVal "mew" REq 0; CVal "mop" REq 0; CVal "sumop" REq 0; CVal "width" REq 7; CVal "opcode" REq 0x27];
   mk_row "vsm" f_VMem [CVal "nf" REq 0; CVal "mew" REq 0; CVal "mop" REq 0; CVal "sumop" REq 0xb; CVal "width" REq 0; CVal "opcode" REq 0x27];
   mk_row "vse8ff" f_VMem [CVal "nf" REq 0; CVal "mew" REq 0; CVal "mop" REq 0; CVal "sumop" REq 0x10; CVal "width" REq 0; CVal "opcode" REq 0x27];
   mk_row "vse16ff" f_VMem [CVal "nf" REq 0; CVal "mew" REq 0; CVal "mop" REq 0; CVal "sumop" REq 0x10; CVal "width" REq 5; CVal "opcode" REq 0x27];
   mk_row "vse32ff" f_VMem [CVal "nf" REq 0; CVal "mew" REq 0; CVal "mop" REq 0; CVal "sumop" REq 0x10; CVal "width" REq 6; CVal "opcode" REq 0x27];
   mk_row "vse64ff" f_VMem [CVal "nf" REq 0; CVal "mew" REq 0; CVal "mop" REq 0; CVal "sumop" REq 0x10; CVal "width" REq 7; CVal "opcode" REq 0x27];
   mk_row "vs1re8" f_VMem [CVal "nf" REq 0; CVal "mop" REq 0; CVal "vm" REq 1; CVal "sumop" REq 8; CVal "width" REq 0; CVal "opcode" REq 0x27];
   mk_row "vs1re16" f_VMem [CVal "nf" REq 0; CVal "mop" REq 0; CVal "vm" REq 1; CVal "sumop" REq 8; CVal "width" REq 5; CVal "opcode" REq 0x27];
   mk_row "vs1re32" f_VMem [CVal "nf" REq 0; CVal "mop" REq 0; CVal "vm" REq 1; CVal "sumop" REq 8; CVal "width" REq 6; CVal "opcode" REq 0x27];
   mk_row "vs1re64" f_VMem [CVal "nf" REq 0; CVal "mop" REq 0; CVal "vm" REq 1; CVal "sumop" REq 8; CVal "width" REq 7; CVal "opcode" REq 0x27];
   mk_row "vs2re8" f_VMem [CVal "nf" REq 1; CVal "mop" REq 0; CVal "vm" REq 1; CVal "sumop" REq 8; CVal "width" REq 0; CVal "opcode" REq 0x27];
   mk_row "vs2re16" f_VMem [CVal "nf" REq 1; CVal "mop" REq 0; CVal "vm" REq 1; CVal "sumop" REq 8; CVal "width" REq 5; CVal "opcode" REq 0x27];
   mk_row "vs2re32" f_VMem [CVal "nf" REq 1; CVal "mop" REq 0; CVal "vm" REq 1; CVal "sumop" REq 8; CVal "width" REq 6; CVal "opcode" REq 0x27];
   mk_row "vs2re64" f_VMem [CVal "nf" REq 1; CVal "mop" REq 0; CVal "vm" REq 1; CVal "sumop" REq 8; CVal "width" REq 7; CVal "opcode" REq 0x27];
   mk_row "vs4re8" f_VMem [CVal "nf" REq 3; CVal "mop" REq 0; CVal "vm" REq 1; CVal "sumop" REq 8; CVal "width" REq 0; CVal "opcode" REq 0x27];
   mk_row "vs4re16" f_VMem [CVal "nf" REq 3; CVal "mop" REq 0; CVal "vm" REq 1; CVal "sumop" REq 8; CVal "width" REq 5; CVal "opcode" REq 0x27];
   mk_row "vs4re32" f_VMem [CVal "nf" REq 3; CVal "mop" REq 0; CVal "vm" REq 1; CVal "sumop" REq 8; CVal "width" REq 6; CVal "opcode" REq 0x27];
   mk_row "vs4re64" f_VMem [CVal "nf" REq 3; CVal "mop" REq 0; CVal "vm" REq 1; CVal "sumop" REq 8; CVal "width" REq 7; CVal "opcode" REq 0x27];
   mk_row "vs8re8" f_VMem [CVal "nf" REq 7; CVal "mop" REq 0; CVal "vm" REq 1; CVal "sumop" REq 8; CVal "width" REq 0; CVal "opcode" REq 0x27];
   mk_row "vs8re16" f_VMem [CVal "nf" REq 7; CVal "mop" REq 0; CVal "vm" REq 1; CVal "sumop" REq 8; CVal "width" REq 5; CVal "opcode" REq 0x27];
   mk_row "vs8re32" f_VMem [CVal "nf" REq 7; CVal "mop" REq 0; CVal "vm" REq 1; CVal "sumop" REq 8; CVal "width" REq 6; CVal "opcode" REq 0x27];
   mk_row "vs8re64" f_VMem [CVal "nf" REq 7; CVal "mop" REq 0; CVal "vm" REq 1; CVal "sumop" REq 8; CVal "width" REq 7; CVal "opcode" REq 0x27];
   mk_row "vsse8" f_VMem [CVal "nf" REq 0; CVal "mew" REq 0; CVal "mop" REq 2; CVal "width" REq 0; CVal "opcode" REq 0x27];
   mk_row "vsse16" f_VMem [CVal "nf" REq 0; CVal "mew" REq 0; CVal "mop" REq 2; CVal "width" REq 5; CVal "opcode" REq 0x27];
   mk_row "vsse32" f_VMem [CVal "nf" REq 0; CVal "mew" REq 0; CVal "mop" REq 2; CVal "width" REq 6; CVal "opcode" REq 0x27];
   mk_row "vsse64" f_VMem [CVal "nf" REq 0; CVal "mew" REq 0; CVal "mop" REq 2; CVal "width" REq 7; CVal "opcode" REq 0x27];
   mk_row "vsuxei8" f_VMem [CVal "nf" REq 0; CVal "mew" REq 0; CVal "mop" REq 1; CVal "width" REq 0; CVal "opcode" REq 0x27];
   mk_row "vsuxei16" f_VMem [CVal "nf" REq 0; CVal "mew" REq 0; CVal "mop" REq 1; CVal "width" REq 5; CVal "opcode" REq 0x27];
   mk_row "vsuxei32" f_VMem [CVal "nf" REq 0; CVal "mew" REq 0; CVal "mop" REq 1; CVal "width" REq 6; CVal "opcode" REq 0x27];
   mk_row "vsuxei64" f_VMem [CVal "nf" REq 0; CVal "mew" REq 0; CVal "mop" REq 1; CVal "width" REq 7; CVal "opcode" REq 0x27];
   mk_row "vsoxei8" f_VMem [CVal "nf" REq 0; CVal "mew" REq 0; CVal "mop" REq 3; CVal "width" REq 0; CVal "opcode" REq 0x27];
   mk_row "vsoxei16" f_VMem [CVal "nf" REq 0; CVal "mew" REq 0; CVal "mop" REq 3; CVal "width" REq 5; CVal "opcode" REq 0x27];
   mk_row "vsoxei32" f_VMem [CVal "nf" REq 0; CVal "mew" REq 0; CVal "mop" REq 3; CVal "width" REq 6; CVal "opcode" REq 0x27];
   mk_row "vsoxei64" f_VMem [CVal "nf" REq 0; CVal "mew" REq 0; CVal "mop" REq 3; CVal "width" REq 7; CVal "opcode" REq 0x27];
   mk_row "vssege8" f_VMem [CVal "nf" RNe 0; CVal "mew" REq 0; CVal "mop" REq 0; CVal "sumop" REq 0; CVal "width" REq 0; CVal "opcode" REq 0x27];
   mk_row "vssege16" f_VMem [CVal "nf" RNe 0; CVal "mew" REq 0; CVal "mop" REq 0; CVal "sumop" REq 0; CVal "width" REq 5; CVal "opcode" REq 0x27];
   mk_row "vssege32" f_VMem [CVal "nf" RNe 0; CVal "mew" REq 0; CVal "mop" REq 0; CVal "sumop" REq 0; CVal "width" REq 6; CVal "opcode" REq 0x27];
   mk_row "vssege64" f_VMem [CVal "nf" RNe 0; CVal "mew" REq 0; CVal "mop" REq 0; CVal "sumop" REq 0; CVal "width" REq 7; CVal "opcode" REq 0x27];
   mk_row "vsssege8" f_VMem [CVal "nf" RNe 0; CVal "mew" REq 0; CVal "mop" REq 2; CVal "width" REq 0; CVal "opcode" REq 0x27];
   mk_row "vsssege16" f_VMem [CVal "nf" RNe 0; CVal "mew" REq 0; CVal "mop" REq 2; CVal "width" REq 5; CVal "opcode" REq 0x27];
   mk_row "vsssege32" f_VMem [CVal "nf" RNe 0; CVal "mew" REq 0; CVal "mop" REq 2; CVal "width" REq 6; CVal "opcode" REq 0x27];
   mk_row "vsssege64" f_VMem [CVal "nf" RNe 0; CVal "mew" REq 0; CVal "mop" REq 2; CVal "width" REq 7; CVal "opcode" REq 0x27];
   mk_row "vsuxsegei8" f_VMem [CVal "nf" RNe 0; CVal "mew" REq 0; CVal "mop" REq 1; CVal "width" REq 0; CVal "opcode" REq 0x27];
   mk_row "vsuxsegei16" f_VMem [CVal "nf" RNe 0; CVal "mew" REq 0; CVal "mop" REq 1; CVal "width" REq 5; CVal "opcode" REq 0x27];
   mk_row "vsuxsegei32" f_VMem [CVal "nf" RNe 0; CVal "mew" REq 0; CVal "mop" REq 1; CVal "width" REq 6; CVal "opcode" REq 0x27];
   mk_row "vsuxsegei64" f_VMem [CVal "nf" RNe 0; CVal "mew" REq 0; CVal "mop" REq 1; CVal "width" REq 7; CVal "opcode" REq 0x27];
   mk_row "vsoxsegei8" f_VMem [CVal "nf" RNe 0; CVal "mew" REq 0; CVal "mop" REq 3; CVal "width" REq 0; CVal "opcode" REq 0x27];
   mk_row "vsoxsegei16" f_VMem [CVal "nf" RNe 0; CVal "mew" REq 0; CVal "mop" REq 3; CVal "width" REq 5; CVal "opcode" REq 0x27];
   mk_row "vsoxsegei32" f_VMem [CVal "nf" RNe 0; CVal "mew" REq 0; CVal "mop" REq 3; CVal "width" REq 6; CVal "opcode" REq 0x27];
   mk_row "vsoxsegei64" f_VMem [CVal "nf" RNe 0; CVal "mew" REq 0; CVal "mop" REq 3; CVal "width" REq 7; CVal "opcode" REq 0x27];
   mk_row "vadd_vv" f_VArith [CVal "func6" REq 0; CVal "func3" REq 0; CVal "opcode" REq 0x57];
   mk_row "vadd_vx" f_VArith [CVal "func6" REq 0; CVal "func3" REq 4; CVal "opcode" REq 0x57];
   mk_row "vadd_vi" f_VArith [CVal "func6" REq 0; CVal "func3" REq 3; CVal "opcode" REq 0x57];
   mk_row "vsub_vv" f_VArith [CVal "func6" REq 2; CVal "func3" REq 0; CVal "opcode" REq 0x57];
   mk_row "vsub_vx" f_VArith [CVal "func6" REq 2; CVal "func3" REq 4; CVal "opcode" REq 0x57];
   mk_row "vrsub_vx" f_VArith [CVal "func6" REq 3; CVal "func3" REq 4; CVal "opcode" REq 0x57];
   mk_row "vrsub_vi" f_VArith [CVal "func6" REq 3; CVal "func3" REq 3; CVal "opcode" REq 0x57];
   mk_row "vminu_vv" f_VArith [CVal "func6" REq 4; CVal "func3" REq 0; CVal "opcode" REq 0x57];
   mk_row "vminu_vx" f_VArith [CVal "func6" REq 4; CVal "func3" REq 4; CVal "opcode" REq 0x57];
   mk_row "vmin_vv" f_VArith [CVal "func6" REq 5; CVal "func3" REq 0; CVal "opcode" REq 0x57];
   mk_row "vmin_vx" f_VArith [CVal "func6" REq 5; CVal "func3" REq 4; CVal "opcode" REq 0x57];
   mk_row "vmaxu_vv" f_VArith [CVal "func6" REq 6; CVal "func3" REq 0; CVal "opcode" REq 0x57];
   mk_row "vmaxu_vx" f_VArith [CVal "func6" REq 6; CVal "func3" REq 4; CVal "opcode" REq 0x57];
   mk_row "vmax_vv" f_VArith [CVal "func6" REq 7; CVal "func3" REq 0; CVal "opcode" REq 0x57];
   mk_row "vmax_vx" f_VArith [CVal "func6" REq 7; CVal "func3" REq 4; CVal "opcode" REq 0x57];
   mk_row "vand_vv" f_VArith [CVal "func6" REq 9; CVal "func3" REq 0; CVal "opcode" REq 0x57];
   mk_row "vand_vx" f_VArith [CVal "func6" REq 9; CVal "func3" REq 4; CVal "opcode" REq 0x57];
   mk_row "vand_vi" f_VArith [CVal "func6" REq 9; CVal "func3" REq 3; CVal "opcode" REq 0x57];
   mk_row "vor_vv" f_VArith [CVal "func6" REq 0xa; CVal "func3" REq 0; CVal "opcode" REq 0x57];
   mk_row "vor_vx" f_VArith [CVal "func6" REq 0xa; CVal "func3" REq 4; CVal "opcode" REq 0x57];
   mk_row "vor_vi" f_VArith [CVal "func6" REq 0xa; CVal "func3" REq 3; CVal "opcode" REq 0x57];
   mk_row "vxor_vv" f_VArith [CVal "func6" REq 0xb; CVal "func3" REq 0; CVal "opcode" REq 0x57];
   mk_row "vxor_vx" f_VArith [CVal "func6" REq 0xb; CVal "func3" REq 4; CVal "opcode" REq 0x57];
   mk_row "vxor_vi" f_VArith [CVal "func6" REq 0xb; CVal "func3" REq 3; CVal "opcode" REq 0x57];
   mk_row "vrgather_vv" f_VArith [CVal "func6" REq 0xc; CVal "func3" REq 0; CVal "opcode" REq 0x57];
   mk_row "vrgather_vx" f_VArith [CVal "func6" REq 0xc; CVal "func3" REq 4; CVal "opcode" REq 0x57];
   mk_row "vrgather_vi" f_VArith [CVal "func6" REq 0xc; CVal "func3" REq 3; CVal "opcode" REq 0x57];
   mk_row "vslideup_vx" f_VArith [CVal "func6" REq 0xe; CVal "func3" REq 4; CVal "opcode" REq 0x57];
   mk_row "vslideup_vi" f_VArith [CVal "func6" REq 0xe; CVal "func3" REq 3; CVal "opcode" REq 0x57];
   mk_row "vrgatherei16_vv" f_VArith [CVal "func6" REq 0xe; CVal "func3" REq 0; CVal "opcode" REq 0x57];
   mk_row "vslidedown_vx" f_VArith [CVal "func6" REq 0xf; CVal "func3" REq 4; CVal "opcode" REq 0x57];
   mk_row "vslidedown_vi" f_VArith [CVal "func6" REq 0xf; CVal "func3" REq 3; CVal "opcode" REq 0x57];
   mk_row "vadc_vv" f_VArith [CVal "func6" REq 0x10; CVal "vd" RNe 0; CVal "vm" REq 0; CVal "func3" REq 0; CVal "opcode" REq 0x57];
   mk_row "vadc_vx" f_VArith [CVal "func6" REq 0x10; CVal "vd" RNe 0; CVal "vm" REq 0; CVal "func3" REq 4; CVal "opcode" REq 0x57];
   mk_row "vadc_vi" f_VArith [CVal "func6" REq 0x10; CVal "vd" RNe 0; CVal "vm" REq 0; CVal "func3" REq 3; CVal "opcode" REq 0x57];
   mk_row "vmadc_vv" f_VArith [CVal "func6" REq 0x11; CVal "func3" REq 0; CVal "opcode" REq 0x57];
   mk_row "vmadc_vx" f_VArith [CVal "func6" REq 0x11; CVal "func3" REq 4; CVal "opcode" REq 0x57];
   mk_row "vmadc_vi" f_VArith [CVal "func6" REq 0x11; CVal "func3" REq 3; CVal "opcode" REq 0x57];
   mk_row "vsbc_vv" f_VArith [CVal "func6" REq 0x12; CVal "vd" RNe 0; CVal "vm" REq 0; CVal "func3" REq 0; CVal "opcode" REq 0x57];
   mk_row "vsbc_vx" f_VArith [CVal "func6" REq 0x12; CVal "vd" RNe 0; CVal "vm" REq 0; CVal "func3" REq 4; CVal "opcode" REq 0x57];
   mk_row "vmsbc_vv" f_VArith [CVal "func6" REq 0x13; CVal "func3" REq 0; CVal "opcode" REq 0x57];
   mk_row "vmsbc_vx" f_VArith [CVal "func6" REq 0x13; CVal "func3" REq 4; CVal "opcode" REq 0x57];
   mk_row "vmerge_vv" f_VArith [CVal "func6" REq 0x17; CVal "vm" REq 0; CVal "func3" REq 0; CVal "opcode" REq 0x57];
   mk_row "vmerge_vx" f_VArith [CVal "func6" REq 0x17; CVal "vm" REq 0; CVal "func3" REq 4; CVal "opcode" REq 0x57];
   mk_row "vmerge_vi" f_VArith [CVal "func6" REq 0x17; CVal "vm" REq 0; CVal "func3" REq 3; CVal "opcode" REq 0x57];
   mk_row "vmv_vv" f_VArith [CVal "func6" REq 0x17; CVal "vm" REq 1; CVal "vs2" REq 0; CVal "func3" REq 0; CVal "opcode" REq 0x57];
   mk_row "vmv_vx" f_VArith [CVal "func6" REq 0x17; CVal "vm" REq 1; CVal "vs2" REq 0; CVal "func3" REq 4; CVal "opcode" REq 0x57];
   mk_row "vmv_vi" f_VArith [CVal "func6" REq 0x17; CVal "vm" REq 1; CVal "vs2" REq 0; CVal "func3" REq 3; CVal "opcode" REq 0x57];
   mk_row "vmseq_vv" f_VArith [CVal "func6" REq 0x18; CVal "func3" REq 0; CVal "opcode" REq 0x57];
   mk_row "vmseq_vx" f_VArith [CVal "func6" REq 0x18; CVal "func3" REq 4; CVal "opcode" REq 0x57];
   mk_row "vmseq_vi" f_VArith [CVal "func6" REq 0x18; CVal "func3" REq 3; CVal "opcode" REq 0x57];
   mk_row "vmsne_vv" f_VArith [CVal "func6" REq 0x19; CVal "func3" REq 0; CVal "opcode" REq 0x57];
   mk_row "vmsne_vx" f_VArith [CVal "func6" REq 0x19; CVal "func3" REq 4; CVal "opcode" REq 0x57];
   mk_row "vmsne_vi" f_VArith [CVal "func6" REq 0x19; CVal "func3" REq 3; CVal "opcode" REq 0x57];
   mk_row "vmsltu_vv" f_VArith [CVal "func6" REq 0x1a; CVal "func3" REq 0; CVal "opcode" REq 0x57];
   mk_row "vmsltu_vx" f_VArith [CVal "func6" REq 0x1a; CVal "func3" REq 4; CVal "opcode" REq 0x57];
   mk_row "vmslt_vv" f_VArith [CVal "func6" REq 0x1b; CVal "func3" REq 0; CVal "opcode" REq 0x57];
   mk_row "vmslt_vx" f_VArith [CVal "func6" REq 0x1b; CVal "func3" REq 4; CVal "opcode" REq 0x57];
   mk_row "vmsleu_vv" f_VArith [CVal "func6" REq 0x1c; CVal "func3" REq 0; CVal "opcode" REq 0x57];
   mk_row "vmsleu_vx" f_VArith [CVal "func6" REq 0x1c; CVal "func3" REq 4; CVal "opcode" REq 0x57];
   mk_row "vmsleu_vi" f_VArith [CVal "func6" REq 0x1c; CVal "func3" REq 3; CVal "opcode" REq 0x57];
   mk_row "vmsle_vv" f_VArith [CVal "func6" REq 0x1d; CVal "func3" REq 0; CVal "opcode" REq 0x57];
   mk_row "vmsle_vx" f_VArith [CVal "func6" REq 0x1d; CVal "func3" REq 4; CVal "opcode" REq 0x57];
   mk_row "vmsle_vi" f_VArith [CVal "func6" REq 0x1d; CVal "func3" REq 3; CVal "opcode" REq 0x57];
   mk_row "vmsgtu_vx" f_VArith [CVal "func6" REq 0x1e; CVal "func3" REq 4; CVal "opcode" REq 0x57];
   mk_row "vmsgtu_vi" f_VArith [CVal "func6" REq 0x1e; CVal "func3" REq 3; CVal "opcode" REq 0x57];
   mk_row "vmsgt_vx" f_VArith [CVal "func6" REq 0x1f; CVal "func3" REq 4; CVal "opcode" REq 0x57];
   mk_row "vmsgt_vi" f_VArith [CVal "func6" REq 0x1f; CVal "func3" REq 3; CVal "opcode" REq 0x57];
   mk_row "vsaddu_vv" f_VArith [CVal "func6" REq 0x20; CVal "func3" REq 0; CVal "opcode" REq 0x57];
   mk_row "vsaddu_vx" f_VArith [CVal "func6" REq 0x20; CVal "func3" REq 4; CVal "opcode" REq 0x57];
   mk_row "vsaddu_vi" f_VArith [CVal "func6" REq 0x20; CVal "func3" REq 3; CVal "opcode" REq 0x57];
   mk_row "vsadd_vv" f_VArith [CVal "func6" REq 0x21; CVal "func3" REq 0; CVal "opcode" REq 0x57];
   mk_row "vsadd_vx" f_VArith [CVal "func6" REq 0x21; CVal "func3" REq 4; CVal "opcode" REq 0x57];
   mk_row "vsadd_vi" f_VArith [CVal "func6" REq 0x21; CVal "func3" REq 3; CVal "opcode" REq 0x57];
   mk_row "vssubu_vv" f_VArith [CVal "func6" REq 0x22; CVal "func3" REq 0; CVal "opcode" REq 0x57];
   mk_row "vssubu_vx" f_VArith [CVal "func6" REq 0x22; CVal "func3" REq 4; CVal "opcode" REq 0x57];
   mk_row "vssub_vv" f_VArith [CVal "func6" REq 0x23; CVal "func3" REq 0; CVal "opcode" REq 0x57];
   mk_row "vssub_vx" f_VArith [CVal "func6" REq 0x23; CVal "func3" REq 4; CVal "opcode" REq 0x57];
   mk_row "vsll_vv" f_VArith [CVal "func6" REq 0x25; CVal "func3" REq 0; CVal "opcode" REq 0x57];
   mk_row "vsll_vx" f_VArith [CVal "func6" REq 0x25; CVal "func3" REq 4; CVal "opcode" REq 0x57];
   mk_row "vsll_vi" f_VArith [CVal "func6" REq 0x25; CVal "func3" REq 3; CVal "opcode" REq 0x57];
   mk_row "vsmul_vv" f_VArith [CVal "func6" REq 0x27; CVal "func3" REq 0; CVal "opcode" REq 0x57];
   mk_row "vsmul_vx" f_VArith [CVal "func6" REq 0x27; CVal "func3" REq 4; CVal "opcode" REq 0x57];
   mk_row "vmv1r_vi" f_VArith [CVal "func6" REq 0x27; CVal "uimm5" REq 0; CVal "func3" REq 3; CVal "opcode" REq 0x57];
   mk_row "vmv2r_vi" f_VArith [CVal "func6" REq 0x27; CVal "uimm5" REq 1; CVal "func3" REq 3; CVal "opcode" REq 0x57];
   mk_row "vmv4r_vi" f_VArith [CVal "func6" REq 0x27; CVal "uimm5" REq 3; CVal "func3" REq 3; CVal "opcode" REq 0x57];
   mk_row "vmv8r_vi" f_VArith [CVal "func6" REq 0x27; CVal "uimm5" REq 7; CVal "func3" REq 3; CVal "opcode" REq 0x57];
   mk_row "vsrl_vv" f_VArith [CVal "func6" REq 0x28; CVal "func3" REq 0; CVal "opcode" REq 0x57];
   mk_row "vsrl_vx" f_VArith [CVal "func6" REq 0x28; CVal "func3" REq 4; CVal "opcode" REq 0x57];
   mk_row "vsrl_vi" f_VArith [CVal "func6" REq 0x28; CVal "func3" REq 3; CVal "opcode" REq 0x57];
   mk_row "vsra_vv" f_VArith [CVal "func6" REq 0x29; CVal "func3" REq 0; CVal "opcode" REq 0x57];
   mk_row "vsra_vx" f_VArith [CVal "func6" REq 0x29; CVal "func3" REq 4; CVal "opcode" REq 0x57];
   mk_row "vsra_vi" f_VArith [CVal "func6" REq 0x29; CVal "func3" REq 3; CVal "opcode" REq 0x57];
   mk_row "vssrl_vv" f_VArith [CVal "func6" REq 0x2a; CVal "func3" REq 0; CVal "opcode" REq 0x57];
   mk_row "vssrl_vx" f_VArith [CVal "func6" REq 0x2a; CVal "func3" REq 4; CVal "opcode" REq 0x57];
   mk_row "vssrl_vi" f_VArith [CVal "func6" REq 0x2a; CVal "func3" REq 3; CVal "opcode" REq 0x57];
   mk_row "vssra_vv" f_VArith [CVal "func6" REq 0x2b; CVal "func3" REq 0; CVal "opcode" REq 0x57];
   mk_row "vssra_vx" f_VArith [CVal "func6" REq 0x2b; CVal "func3" REq 4; CVal "opcode" REq 0x57];
   mk_row "vssra_vi" f_VArith [CVal "func6" REq 0x2b; CVal "func3" REq 3; CVal "opcode" REq 0x57];
   mk_row "vnsrl_vv" f_VArith [CVal "func6" REq 0x2c; CVal "func3" REq 0; CVal "opcode" REq 0x57];
   mk_row "vnsrl_vx" f_VArith [CVal "func6" REq 0x2c; CVal "func3" REq 4; CVal "opcode" REq 0x57];
   mk_row "vnsrl_vi" f_VArith [CVal "func6" REq 0x2c; CVal "func3" REq 3; CVal "opcode" REq 0x57];
   mk_row "vnsra_vv" f_VArith [CVal "func6" REq 0x2d; CVal "func3" REq 0; CVal "opcode" REq 0x57];
   mk_row "vnsra_vx" f_VArith [CVal "func6" REq 0x2d; CVal "func3" REq 4; CVal "opcode" REq 0x57];
   mk_row "vnsra_vi" f_VArith [CVal "func6" REq 0x2d; CVal "func3" REq 3; CVal "opcode" REq 0x57];
   mk_row "vnclipu_vv" f_VArith [CVal "func6" REq 0x2e; CVal "func3" REq 0; CVal "opcode" REq 0x57];
   mk_row "vnclipu_vx" f_VArith [CVal "func6" REq 0x2e; CVal "func3" REq 4; CVal "opcode" REq 0x57];
   mk_row "vnclipu_vi" f_VArith [CVal "func6" REq 0x2e; CVal "func3" REq 3; CVal "opcode" REq 0x57];
   mk_row "vnclip_vv" f_VArith [CVal "func6" REq 0x2f; CVal "func3" REq 0; CVal "opcode" REq 0x57];
   mk_row "vnclip_vx" f_VArith [CVal "func6" REq 0x2f; CVal "func3" REq 4; CVal "opcode" REq 0x57];
   mk_row "vnclip_vi" f_VArith [CVal "func6" REq 0x2f; CVal "func3" REq 3; CVal "opcode" REq 0x57];
   mk_row "vwredsumu_vv" f_VArith [CVal "func6" REq 0x30; CVal "func3" REq 0; CVal "opcode" REq 0x57];
   mk_row "vwredsum_vv" f_VArith [CVal "func6" REq 0x31; CVal "func3" REq 0; CVal "opcode" REq 0x57];
   mk_row "vredsum_vv" f_VArith [CVal "func6" REq 0; CVal "func3" REq 2; CVal "opcode" REq 0x57];
   mk_row "vredand_vv" f_VArith [CVal "func6" REq 1; CVal "func3" REq 2; CVal "opcode" REq 0x57];
   mk_row "vredor_vv" f_VArith [CVal "func6" REq 2; CVal "func3" REq 2; CVal "opcode" REq 0x57];
   mk_row "vredxor_vv" f_VArith [CVal "func6" REq 3; CVal "func3" REq 2; CVal "opcode" REq 0x57];
   mk_row "vredminu_vv" f_VArith [CVal "func6" REq 4; CVal "func3" REq 2; CVal "opcode" REq 0x57];
   mk_row "vredmin_vv" f_VArith [CVal "func6" REq 5; CVal "func3" REq 2; CVal "opcode" REq 0x57];
   mk_row "vredmaxu_vv" f_VArith [CVal "func6" REq 6; CVal "func3" REq 2; CVal "opcode" REq 0x57];
   mk_row "vredmax_vv" f_VArith [CVal "func6" REq 7; CVal "func3" REq 2; CVal "opcode" REq 0x57];
   mk_row "vaaddu_vv" f_VArith [CVal "func6" REq 8; CVal "func3" REq 2; CVal "opcode" REq 0x57];
   mk_row "vaaddu_vx" f_VArith [CVal "func6" REq 8; CVal "func3" REq 6; CVal "opcode" REq 0x57];
   mk_row "vaadd_vv" f_VArith [CVal "func6" REq 9; CVal "func3" REq 2; CVal "opcode" REq 0x57];
   mk_row "vaadd_vx" f_VArith [CVal "func6" REq 9; CVal "func3" REq 6; CVal "opcode" REq 0x57];
   mk_row "vasubu_vv" f_VArith [CVal "func6" REq 0xa; CVal "func3" REq 2; CVal "opcode" REq 0x57];
   mk_row "vasubu_vx" f_VArith [CVal "func6" REq 0xa; CVal "func3" REq 6; CVal "opcode" REq 0x57];
   mk_row "vasub_vv" f_VArith [CVal "func6" REq 0xb; CVal "func3" REq 2; CVal "opcode" REq 0x57];
   mk_row "vasub_vx" f_VArith [CVal "func6" REq 0xb; CVal "func3" REq 6; CVal "opcode" REq 0x57];
   mk_row "vslide1up_vx" f_VArith [CVal "func6" REq 0xe; CVal "func3" REq 6; CVal "opcode" REq 0x57];
   mk_row "vslide1down_vx" f_VArith [CVal "func6" REq 0xf; CVal "func3" REq 6; CVal "opcode" REq 0x57];
   mk_row "vcompress_vv" f_VArith [CVal "func6" REq 0x17; CVal "func3" REq 2; CVal "opcode" REq 0x57];
   mk_row "vmandnot_vv" f_VArith [CVal "func6" REq 0x18; CVal "func3" REq 2; CVal "opcode" REq 0x57];
   mk_row "vmand_vv" f_VArith [CVal "func6" REq 0x19; CVal "func3" REq 2; CVal "opcode" REq 0x57];
   mk_row "vmor_vv" f_VArith [CVal "func6" REq 0x1a; CVal "func3" REq 2; CVal "opcode" REq 0x57];
   mk_row "vmxor_vv" f_VArith [CVal "func6" REq 0x1b; CVal "func3" REq 2; CVal "opcode" REq 0x57];
   mk_row "vmornot_vv" f_VArith [CVal "func6" REq 0x1c; CVal "func3" REq 2; CVal "opcode" REq 0x57];
   mk_row "vmnand_vv" f_VArith [CVal "func6" REq 0x1d; CVal "func3" REq 2; CVal "opcode" REq 0x57];
   mk_row "vmnor_vv" f_VArith [CVal "func6" REq 0x1e; CVal "func3" REq 2; CVal "opcode" REq 0x57];
   mk_row "vmxnor_vv" f_VArith [CVal "func6" REq 0x1f; CVal "func3" REq 2; CVal "opcode" REq 0x57];
   mk_row "vdivu_vv" f_VArith [CVal "func6" REq 0x20; CVal "func3" REq 2; CVal "opcode" REq 0x57];
   mk_row "vdivu_vx" f_VArith [CVal "func6" REq 0x20; CVal "func3" REq 6; CVal "opcode" REq 0x57];
   mk_row "vdiv_vv" f_VArith [CVal "func6" REq 0x21; CVal "func3" REq 2; CVal "opcode" REq 0x57];
   mk_row "vdiv_vx" f_VArith [CVal "func6" REq 0x21; CVal "func3" REq 6; CVal "opcode" REq 0x57];
   mk_row "vremu_vv" f_VArith [CVal "func6" REq 0x22; CVal "func3" REq 2; CVal "opcode" REq 0x57];
   mk_row "vremu_vx" f_VArith [CVal "func6" REq 0x22; CVal "func3" REq 6; CVal "opcode" REq 0x57];
   mk_row "vrem_vv" f_VArith [CVal "func6" REq 0x23; CVal "func3" REq 2; CVal "opcode" REq 0x57];
   mk_row "vrem_vx" f_VArith [CVal "func6" REq 0x23; CVal "func3" REq 6; CVal "opcode" REq 0x57];
   mk_row "vmulhu_vv" f_VArith [CVal "func6" REq 0x24; CVal "func3" REq 2; CVal "opcode" REq 0x57];
   mk_row "vmulhu_vx" f_VArith [CVal "func6" REq 0x24; CVal "func3" REq 6; CVal "opcode" REq 0x57];
   mk_row "vmul_vv" f_VArith [CVal "func6" REq 0x25; CVal "func3" REq 2; CVal "opcode" REq 0x57];
   mk_row "vmul_vx" f_VArith [CVal "func6" REq 0x25; CVal "func3" REq 6; CVal "opcode" REq 0x57];
   mk_row "vmulhsu_vv" f_VArith [CVal "func6" REq 0x26; CVal "func3" REq 2; CVal "opcode" REq 0x57];
   mk_row "vmulhsu_vx" f_VArith [CVal "func6" REq 0x26; CVal "func3" REq 6; CVal "opcode" REq 0x57];
   mk_row "vmulh_vv" f_VArith [CVal "func6" REq 0x27; CVal "func3" REq 2; CVal "opcode" REq 0x57];
   mk_row "vmulh_vx" f_VArith [CVal "func6" REq 0x27; CVal "func3" REq 6; CVal "opcode" REq 0x57];
   mk_row "vmadd_vv" f_VArith [CVal "func6" REq 0x29; CVal "func3" REq 2; CVal "opcode" REq 0x57];
   mk_row "vmadd_vx" f_VArith [CVal "func6" REq 0x29; CVal "func3" REq 6; CVal "opcode" REq 0x57];
   mk_row "vnmsub_vv" f_VArith [CVal "func6" REq 0x2b; CVal "func3" REq 2; CVal "opcode" REq 0x57];
   mk_row "vnmsub_vx" f_VArith [CVal "func6" REq 0x2b; CVal "func3" REq 6; CVal "opcode" REq 0x57];
   mk_row "vmacc_vv" f_VArith [CVal "func6" REq 0x2d; CVal "func3" REq 2; CVal "opcode" REq 0x57];
   mk_row "vmacc_vx" f_VArith [CVal "func6" REq 0x2d; CVal "func3" REq 6; CVal "opcode" REq 0x57];
   mk_row "vnmsac_vv" f_VArith [CVal "func6" REq 0x2f; CVal "func3" REq 2; CVal "opcode" REq 0x57];
   mk_row "vnmsac_vx" f_VArith [CVal "func6" REq 0x2f; CVal "func3" REq 6; CVal "opcode" REq 0x57];
   mk_row "vwaddu_vv" f_VArith [CVal "func6" REq 0x30; CVal "func3" REq 2; CVal "opcode" REq 0x57];
   mk_row "vwaddu_vx" f_VArith [CVal "func6" REq 0x30; CVal "func3" REq 6; CVal "opcode" REq 0x57];
   mk_row "vwadd_vv" f_VArith [CVal "func6" REq 0x31; CVal "func3" REq 2; CVal "opcode" REq 0x57];
   mk_row "vwadd_vx" f_VArith [CVal "func6" REq 0x31; CVal "func3" REq 6; CVal "opcode" REq 0x57];
   mk_row "vwsubu_vv" f_VArith [CVal "func6" REq 0x32; CVal "func3" REq 2; CVal "opcode" REq 0x57];
   mk_row "vwsubu_vx" f_VArith [CVal "func6" REq 0x32; CVal "func3" REq 6; CVal "opcode" REq 0x57];
   mk_row "vwsub_vv" f_VArith [CVal "func6" REq 0x33; CVal "func3" REq 2; CVal "opcode" REq 0x57];
   mk_row "vwsub_vx" f_VArith [CVal "func6" REq 0x33; CVal "func3" REq 6; CVal "opcode" REq 0x57];
   mk_row "vwaddu_w_vv" f_VArith [CVal "func6" REq 0x34; CVal "func3" REq 2; CVal "opcode" REq 0x57];
   mk_row "vwaddu_w_vx" f_VArith [CVal "func6" REq 0x34; CVal "func3" REq 6; CVal "opcode" REq 0x57];
   mk_row "vwadd_w_vv" f_VArith [CVal "func6" REq 0x35; CVal "func3" REq 2; CVal "opcode" REq 0x57];
   mk_row "vwadd_w_vx" f_VArith [CVal "func6" REq 0x35; CVal "func3" REq 6; CVal "opcode" REq 0x57];
   mk_row "vwsubu_w_vv" f_VArith [CVal "func6" REq 0x36; CVal "func3" REq 2; CVal "opcode" REq 0x57];
   mk_row "vwsubu_w_vx" f_VArith [CVal "func6" REq 0x36; CVal "func3" REq 6; CVal "opcode" REq 0x57];
   mk_row "vwsub_w_vv" f_VArith [CVal "func6" REq 0x37; CVal "func3" REq 2; CVal "opcode" REq 0x57];
   mk_row "vwsub_w_vx" f_VArith [CVal "func6" REq 0x37; CVal "func3" REq 6; CVal "opcode" REq 0x57];
   mk_row "vwmulu_vv" f_VArith [CVal "func6" REq 0x38; CVal "func3" REq 2; CVal "opcode" REq 0x57];
   mk_row "vwmulu_vx" f_VArith [CVal "func6" REq 0x38; CVal "func3" REq 6; CVal "opcode" REq 0x57];
   mk_row "vwmulsu_vv" f_VArith [CVal "func6" REq 0x3a; CVal "func3" REq 2; CVal "opcode" REq 0x57];
   mk_row "vwmulsu_vx" f_VArith [CVal "func6" REq 0x3a; CVal "func3" REq 6; CVal "opcode" REq 0x57];
   mk_row "vwmul_vv" f_VArith [CVal "func6" REq 0x3b; CVal "func3" REq 2; CVal "opcode" REq 0x57];
   mk_row "vwmul_vx" f_VArith [CVal "func6" REq 0x3b; CVal "func3" REq 6; CVal "opcode" REq 0x57];
   mk_row "vwmaccu_vv" f_VArith [CVal "func6" REq 0x3c; CVal "func3" REq 2; CVal "opcode" REq 0x57];
   mk_row "vwmaccu_vx" f_VArith [CVal "func6" REq 0x3c; CVal "func3" REq 6; CVal "opcode" REq 0x57];
   mk_row "vwmacc_vv" f_VArith [CVal "func6" REq 0x3d; CVal "func3" REq 2; CVal "opcode" REq 0x57];
   mk_row "vwmacc_vx" f_VArith [CVal "func6" REq 0x3d; CVal "func3" REq 6; CVal "opcode" REq 0x57];
   mk_row "vwmaccus_vv" f_VArith [CVal "func6" REq 0x3e; CVal "func3" REq 2; CVal "opcode" REq 0x57];
   mk_row "vwmaccus_vx" f_VArith [CVal "func6" REq 0x3e; CVal "func3" REq 6; CVal "opcode" REq 0x57];
   mk_row "vwmaccsu_vv" f_VArith [CVal "func6" REq 0x3f; CVal "func3" REq 2; CVal "opcode" REq 0x57];
   mk_row "vwmaccsu_vx" f_VArith [CVal "func6" REq 0x3f; CVal "func3" REq 6; CVal "opcode" REq 0x57];
   mk_row "vfadd_vv" f_VArith [CVal "func6" REq 0; CVal "func3" REq 1; CVal "opcode" REq 0x57];
   mk_row "vfadd_vf" f_VArith [CVal "func6" REq 0; CVal "func3" REq 5; CVal "opcode" REq 0x57];
   mk_row "vfredusum_vv" f_VArith [CVal "func6" REq 1; CVal "func3" REq 1; CVal "opcode" REq 0x57];
   mk_row "vfsub_vv" f_VArith [CVal "func6" REq 2; CVal "func3" REq 1; CVal "opcode" REq 0x57];
   mk_row "vfsub_vf" f_VArith [CVal "func6" REq 2; CVal "func3" REq 5; CVal "opcode" REq 0x57];
   mk_row "vfredosum_vv" f_VArith [CVal "func6" REq 3; CVal "func3" REq 1; CVal "opcode" REq 0x57];
   mk_row "vfmin_vv" f_VArith [CVal "func6" REq 4; CVal "func3" REq 1; CVal "opcode" REq 0x57];
   mk_row "vfmin_vf" f_VArith [CVal "func6" REq 4; CVal "func3" REq 5; CVal "opcode" REq 0x57];
   mk_row "vfredmin_vv" f_VArith [CVal "func6" REq 5; CVal "func3" REq 1; CVal "opcode" REq 0x57];
   mk_row "vfmax_vv" f_VArith [CVal "func6" REq 6; CVal "func3" REq 1; CVal "opcode" REq 0x57];
   mk_row "vfmax_vf" f_VArith [CVal "func6" REq 6; CVal "func3" REq 5; CVal "opcode" REq 0x57];
   mk_row "vfredmax_vv" f_VArith [CVal "func6" REq 7; CVal "func3" REq 1; CVal "opcode" REq 0x57];
   mk_row "vfsgnj_vv" f_VArith [CVal "func6" REq 8; CVal "func3" REq 1; CVal "opcode" REq 0x57];
   mk_row "vfsgnj_vf" f_VArith [CVal "func6" REq 8; CVal "func3" REq 5; CVal "opcode" REq 0x57];
   mk_row "vfsgnjn_vv" f_VArith [CVal "func6" REq 9; CVal "func3" REq 1; CVal "opcode" REq 0x57];
   mk_row "vfsgnjn_vf" f_VArith [CVal "func6" REq 9; CVal "func3" REq 5; CVal "opcode" REq 0x57];
   mk_row "vfsgnjx_vv" f_VArith [CVal "func6" REq 0xa; CVal "func3" REq 1; CVal "opcode" REq 0x57];
   mk_row "vfsgnjx_vf" f_VArith [CVal "func6" REq 0xa; CVal "func3" REq 5; CVal "opcode" REq 0x57];
   mk_row "vfslide1up_vf" f_VArith [CVal "func6" REq 0xe; CVal "func3" REq 5; CVal "opcode" REq 0x57];
   mk_row "vfslide1down_vf" f_VArith [CVal "func6" REq 0xf; CVal "func3" REq 5; CVal "opcode" REq 0x57];
   mk_row "vfmv_vf" f_VArith [CVal "func6" REq 0x17; CVal "vm" REq 1; CVal "vs2" REq 0; CVal "func3" REq 5; CVal "opcode" REq 0x57];
   mk_row "vfmerge_vf" f_VArith [CVal "func6" REq 0x17; CVal "vm" REq 0; CVal "func3" REq 5; CVal "opcode" REq 0x57];
   mk_row "vmfeq_vv" f_VArith [CVal "func6" REq 0x18; CVal "func3" REq 1; CVal "opcode" REq 0x57];
   mk_row "vmfeq_vf" f_VArith [CVal "func6" REq 0x18; CVal "func3" REq 5; CVal "opcode" REq 0x57];
   mk_row "vmfle_vv" f_VArith [CVal "func6" REq 0x19; CVal "func3" REq 1; CVal "opcode" REq 0x57];
   mk_row "vmfle_vf" f_VArith [CVal "func6" REq 0x19; CVal "func3" REq 5; CVal "opcode" REq 0x57];
   mk_row "vmflt_vv" f_VArith [CVal "func6" REq 0x1b; CVal "func3" REq 1; CVal "opcode" REq 0x57];
   mk_row "vmflt_vf" f_VArith [CVal "func6" REq 0x1b; CVal "func3" REq 5; CVal "opcode" REq 0x57];
   mk_row "vmfne_vv" f_VArith [CVal "func6" REq 0x1c; CVal "func3" REq 1; CVal "opcode" REq 0x57];
   mk_row "vmfne_vf" f_VArith [CVal "func6" REq 0x1c; CVal "func3" REq 5; CVal "opcode" REq 0x57];
   mk_row "vmfgt_vf" f_VArith [CVal "func6" REq 0x1d; CVal "func3" REq 5; CVal "opcode" REq 0x57];
   mk_row "vmfge_vf" f_VArith [CVal "func6" REq 0x1f; CVal "func3" REq 5; CVal "opcode" REq 0x57];
   mk_row "vfdiv_vv" f_VArith [CVal "func6" REq 0x20; CVal "func3" REq 1; CVal "opcode" REq 0x57];
   mk_row "vfdiv_vf" f_VArith [CVal "func6" REq 0x20; CVal "func3" REq 5; CVal "opcode" REq 0x57];
   mk_row "vfrdiv_vf" f_VArith [CVal "func6" REq 0x21; CVal "func3" REq 5; CVal "opcode" REq 0x57];
   mk_row "vfmul_vv" f_VArith [CVal "func6" REq 0x24; CVal "func3" REq 1; CVal "opcode" REq 0x57];
   mk_row "vfmul_vf" f_VArith [CVal "func6" REq 0x24; CVal "func3" REq 5; CVal "opcode" REq 0x57];
   mk_row "vfrsub_vf" f_VArith [CVal "func6" REq 0x27; CVal "func3" REq 5; CVal "opcode" REq 0x57];
   mk_row "vfmadd_vv" f_VArith [CVal "func6" REq 0x28; CVal "func3" REq 1; CVal "opcode" REq 0x57];
   mk_row "vfmadd_vf" f_VArith [CVal "func6" REq 0x28; CVal "func3" REq 5; CVal "opcode" REq 0x57];
   mk_row "vfnmadd_vv" f_VArith [CVal "func6" REq 0x29; CVal "func3" REq 1; CVal "opcode" REq 0x57];
   mk_row "vfnmadd_vf" f_VArith [CVal "func6" REq 0x29; CVal "func3" REq 5; CVal "opcode" REq 0x57];
   mk_row "vfmsub_vv" f_VArith [CVal "func6" REq 0x2a; CVal "func3" REq 1; CVal "opcode" REq 0x57];
   mk_row "vfmsub_vf" f_VArith [CVal "func6" REq 0x2a; CVal "func3" REq 5; CVal "opcode" REq 0x57];
   mk_row "vfnmsub_vv" f_VArith [CVal "func6" REq 0x2b; CVal "func3" REq 1; CVal "opcode" REq 0x57];
   mk_row "vfnmsub_vf" f_VArith [CVal "func6" REq 0x2b; CVal "func3" REq 5; CVal "opcode" REq 0x57];
   mk_row "vfmacc_vv" f_VArith [CVal "func6" REq 0x2c; CVal "func3" REq 1; CVal "opcode" REq 0x57];
   mk_row "vfmacc_vf" f_VArith [CVal "func6" REq 0x2c; CVal "func3" REq 5; CVal "opcode" REq 0x57];
   mk_row "vfnmacc_vv" f_VArith [CVal "func6" REq 0x2d; CVal "func3" REq 1; CVal "opcode" REq 0x57];
   mk_row "vfnmacc_vf" f_VArith [CVal "func6" REq 0x2d; CVal "func3" REq 5; CVal "opcode" REq 0x57];
   mk_row "vfmsac_vv" f_VArith [CVal "func6" REq 0x2e; CVal "func3" REq 1; CVal "opcode" REq 0x57];
   mk_row "vfmsac_vf" f_VArith [CVal "func6" REq 0x2e; CVal "func3" REq 5; CVal "opcode" REq 0x57];
   mk_row "vfnmsac_vv" f_VArith [CVal "func6" REq 0x2f; CVal "func3" REq 1; CVal "opcode" REq 0x57];
   mk_row "vfnmsac_vf" f_VArith [CVal "func6" REq 0x2f; CVal "func3" REq 5; CVal "opcode" REq 0x57];
   mk_row "vfwadd_vv" f_VArith [CVal "func6" REq 0x30; CVal "func3" REq 1; CVal "opcode" REq 0x57];
   mk_row "vfwadd_vf" f_VArith [CVal "func6" REq 0x30; CVal "func3" REq 5; CVal "opcode" REq 0x57];
   mk_row "vfwredusum_vv" f_VArith [CVal "func6" REq 0x31; CVal "func3" REq 1; CVal "opcode" REq 0x57];
   mk_row "vfwsub_vv" f_VArith [CVal "func6" REq 0x32; CVal "func3" REq 1; CVal "opcode" REq 0x57];
   mk_row "vfwsub_vf" f_VArith [CVal "func6" REq 0x32; CVal "func3" REq 5; CVal "opcode" REq 0x57];
   mk_row "vfwredosum_vv" f_VArith [CVal "func6" REq 0x33; CVal "func3" REq 1; CVal "opcode" REq 0x57];
   mk_row "vfwadd_w_vv" f_VArith [CVal "func6" REq 0x34; CVal "func3" REq 1; CVal "opcode" REq 0x57];
   mk_row "vfwadd_w_vf" f_VArith [CVal "func6" REq 0x34; CVal "func3" REq 5; CVal "opcode" REq 0x57];
   mk_row "vfwsub_w_vv" f_VArith [CVal "func6" REq 0x36; CVal "func3" REq 1; CVal "opcode" REq 0x57];
   mk_row "vfwsub_w_vf" f_VArith [CVal "func6" REq 0x36; CVal "func3" REq 5; CVal "opcode" REq 0x57];
   mk_row "vfwmul_vv" f_VArith [CVal "func6" REq 0x38; CVal "func3" REq 1; CVal "opcode" REq 0x57];
   mk_row "vfwmul_vf" f_VArith [CVal "func6" REq 0x38; CVal "func3" REq 5; CVal "opcode" REq 0x57];
   mk_row "vfwmacc_vv" f_VArith [CVal "func6" REq 0x3c; CVal "func3" REq 1; CVal "opcode" REq 0x57];
   mk_row "vfwmacc_vf" f_VArith [CVal "func6" REq 0x3c; CVal "func3" REq 5; CVal "opcode" REq 0x57];
   mk_row "vfwnmacc_vv" f_VArith [CVal "func6" REq 0x3d; CVal "func3" REq 1; CVal "opcode" REq 0x57];
   mk_row "vfwnmacc_vf" f_VArith [CVal "func6" REq 0x3d; CVal "func3" REq 5; CVal "opcode" REq 0x57];
   mk_row "vfwmsac_vv" f_VArith [CVal "func6" REq 0x3e; CVal "func3" REq 1; CVal "opcode" REq 0x57];
   mk_row "vfwmsac_vf" f_VArith [CVal "func6" REq 0x3e; CVal "func3" REq 5; CVal "opcode" REq 0x57];
   mk_row "vfwnmsac_vv" f_VArith [CVal "func6" REq 0x3f; CVal "func3" REq 1; CVal "opcode" REq 0x57];
   mk_row "vfwnmsac_vf" f_VArith [CVal "func6" REq 0x3f; CVal "func3" REq 5; CVal "opcode" REq 0x57];
   mk_row "vmv_x_s" f_VArith [CVal "func6" REq 0x10; CVal "vs1" REq 0; CVal "func3" REq 2; CVal "opcode" REq 0x57];
   mk_row "vcpop" f_VArith [CVal "func6" REq 0x10; CVal "vs1" REq 0x10; CVal "func3" REq 2; CVal "opcode" REq 0x57];
   mk_row "vfirst" f_VArith [CVal "func6" REq 0x10; CVal "vs1" REq 0x11; CVal "func3" REq 2; CVal "opcode" REq 0x57];
   mk_row "vmv_s_x" f_VArith [CVal "func6" REq 0x10; CVal "vs2" REq 0; CVal "func3" REq 6; CVal "opcode" REq 0x57];
   mk_row "vzext_vf8" f_VArith [CVal "func6" REq 0x12; CVal "vs1" REq 2; CVal "func3" REq 2; CVal "opcode" REq 0x57];
   mk_row "vsext_vf8" f_VArith [CVal "func6" REq 0x12; CVal "vs1" REq 3; CVal "func3" REq 2; CVal "opcode" REq 0x57];
   mk_row "vzext_vf4" f_VArith [CVal "func6" REq 0x12; CVal "vs1" REq 4; CVal "func3" REq 2; CVal "opcode" REq 0x57];
   mk_row "vsext_vf4" f_VArith [CVal "func6" REq 0x12; CVal "vs1" REq 5; CVal "func3" REq 2; CVal "opcode" REq 0x57];
   mk_row "vzext_vf2" f_VArith [CVal "func6" REq 0x12; CVal "vs1" REq 6; CVal "func3" REq 2; CVal "opcode" REq 0x57];
   mk_row "vsext_vf2" f_VArith [CVal "func6" REq 0x12; CVal "vs1" REq 7; CVal "func3" REq 2; CVal "opcode" REq 0x57];
   mk_row "vmsbf" f_VArith [CVal "func6" REq 0x14; CVal "vs1" REq 1; CVal "func3" REq 2; CVal "opcode" REq 0x57];
   mk_row "vmsof" f_VArith [CVal "func6" REq 0x14; CVal "vs1" REq 2; CVal "func3" REq 2; CVal "opcode" REq 0x57];
   mk_row "vmsif" f_VArith [CVal "func6" REq 0x14; CVal "vs1" REq 3; CVal "func3" REq 2; CVal "opcode" REq 0x57];
   mk_row "viota" f_VArith [CVal "func6" REq 0x14; CVal "vs1" REq 0x10; CVal "func3" REq 2; CVal "opcode" REq 0x57];
   mk_row "vid" f_VArith [CVal "func6" REq 0x14; CVal "vs1" REq 0x11; CVal "func3" REq 2; CVal "opcode" REq 0x57];
   mk_row "vfmv_f_s" f_VArith [CVal "func6" REq 0x10; CVal "vs1" REq 0; CVal "func3" REq 1; CVal "opcode" REq 0x57];
   mk_row "vfmv_s_f" f_VArith [CVal "func6" REq 0x10; CVal "vs2" REq 0; CVal "func3" REq 5; CVal "opcode" REq 0x57];
   mk_row "vfcvt_xu_f_v" f_VArith [CVal "func6" REq 0x12; CVal "vs1" REq 0; CVal "func3" REq 1; CVal "opcode" REq 0x57];
   mk_row "vfcvt_x_f_v" f_VArith [CVal "func6" REq 0x12; CVal "vs1" REq 1; CVal "func3" REq 1; CVal "opcode" REq 0x57];
   mk_row "vfcvt_f_xu_v" f_VArith [CVal "func6" REq 0x12; CVal "vs1" REq 2; CVal "func3" REq 1; CVal "opcode" REq 0x57];
   mk_row "vfcvt_f_x_v" f_VArith [CVal "func6" REq 0x12; CVal "vs1" REq 3; CVal "func3" REq 1; CVal "opcode" REq 0x57];
   mk_row "vfcvt_rtz_xu_f_v" f_VArith [CVal "func6" REq 0x12; CVal "vs1" REq 6; CVal "func3" REq 1; CVal "opcode" REq 0x57];
   mk_row "vfcvt_rtz_x_f_v" f_VArith [CVal "func6" REq 0x12; CVal "vs1" REq 7; CVal "func3" REq 1; CVal "opcode" REq 0x57];
   mk_row "vfwcvt_xu_f_v" f_VArith [CVal "func6" REq 0x12; CVal "vs1" REq 8; CVal "func3" REq 1; CVal "opcode" REq 0x57];
   mk_row "vfwcvt_x_f_v" f_VArith [CVal "func6" REq 0x12; CVal "vs1" REq 9; CVal "func3" REq 1; CVal "opcode" REq 0x57];
   mk_row "vfwcvt_f_xu_v" f_VArith [CVal "func6" REq 0x12; CVal "vs1" REq 0xa; CVal "func3" REq 1; CVal "opcode" REq 0x57];
   mk_row "vfwcvt_f_x_v" f_VArith [CVal "func6" REq 0x12; CVal "vs1" REq 0xb; CVal "func3" REq 1; CVal "opcode" REq 0x57];
   mk_row "vfwcvt_f_f_v" f_VArith [CVal "func6" REq 0x12; CVal "vs1" REq 0xc; CVal "func3" REq 1; CVal "opcode" REq 0x57];
   mk_row "vfwcvt_rtz_xu_f_v" f_VArith [CVal "func6" REq 0x12; CVal "vs1" REq 0xe; CVal "func3" REq 1; CVal "opcode" REq 0x57];
   mk_row "vfwcvt_rtz_x_f_v" f_VArith [CVal "func6" REq 0x12; CVal "vs1" REq 0xf; CVal "func3" REq 1; CVal "opcode" REq 0x57];
   mk_row "vfncvt_xu_f_w" f_VArith [CVal "func6" REq 0x12; CVal "vs1" REq 0x10; CVal "func3" REq 1; CVal "opcode" REq 0x57];
   mk_row "vfncvt_x_f_w" f_VArith [CVal "func6" REq 0x12; CVal "vs1" REq 0x11; CVal "func3" REq 1; CVal "opcode" REq 0x57];
   mk_row "vfncvt_f_xu_w" f_VArith [CVal "func6" REq 0x12; CVal "vs1" REq 0x12; CVal "func3" REq 1; CVal "opcode" REq 0x57];
   mk_row "vfncvt_f_x_w" f_VArith [CVal "func6" REq 0x12; CVal "vs1" REq 0x13; CVal "func3" REq 1; CVal "opcode" REq 0x57];
   mk_row "vfncvt_f_f_w" f_VArith [CVal "func6" REq 0x12; CVal "vs1" REq 0x14; CVal "func3" REq 1; CVal "opcode" REq 0x57];
   mk_row "vfncvt_rod_f_f_w" f_VArith [CVal "func6" REq 0x12; CVal "vs1" REq 0x15; CVal "func3" REq 1; CVal "opcode" REq 0x57];
   mk_row "vfncvt_rtz_xu_f_w" f_VArith [CVal "func6" REq 0x12; CVal "vs1" REq 0x16; CVal "func3" REq 1; CVal "opcode" REq 0x57];
   mk_row "vfncvt_rtz_x_f_w" f_VArith [CVal "func6" REq 0x12; CVal "vs1" REq 0x17; CVal "func3" REq 1; CVal "opcode" REq 0x57];
   mk_row "vfsqrt_v" f_VArith [CVal "func6" REq 0x13; CVal "vs1" REq 0; CVal "func3" REq 1; CVal "opcode" REq 0x57];
   mk_row "vfrsqrt7_v" f_VArith [CVal "func6" REq 0x13; CVal "vs1" REq 4; CVal "func3" REq 1; CVal "opcode" REq 0x57];
   mk_row "vfrec7_v" f_VArith [CVal "func6" REq 0x13; CVal "vs1" REq 5; CVal "func3" REq 1; CVal "opcode" REq 0x57];
   mk_row "vfclass_v" f_VArith [CVal "func6" REq 0x13; CVal "vs1" REq 0x10; CVal "func3" REq 1; CVal "opcode" REq 0x57]].

(** riscv_zicond.bin_fmt:17-20, instruction group RiscVZicond. *)
Definition g_RiscVZicond : list row := [
   mk_row "czero_eqz" f_RType [CVal "func7" REq 7; CVal "func3" REq 5; CVal "opcode" REq 0x33];
   mk_row "czero_nez" f_RType [CVal "func7" REq 7; CVal "func3" REq 7; CVal "opcode" REq 0x33]].

(** riscv_zimop.bin_fmt:20-61, instruction group RiscVZimop. *)
Definition g_RiscVZimop : list row := [
   mk_row "mop_r_0" f_MopRType [CVal "mop_no" REq 0; CVal "func1" REq 1; CVal "func2" REq 0; CVal "func4" REq 7; CVal "func3" REq 4; CVal "opcode" REq 0x73];
   mk_row "mop_r_1" f_MopRType [CVal "mop_no" REq 1; CVal "func1" REq 1; CVal "func2" REq 0; CVal "func4" REq 7; CVal "func3" REq 4; CVal "opcode" REq 0x73];
   mk_row "mop_r_2" f_MopRType [CVal "mop_no" REq 2; CVal "func1" REq 1; CVal "func2" REq 0; CVal "func4" REq 7; CVal "func3" REq 4; CVal "opcode" REq 0x73];
   mk_row "mop_r_3" f_MopRType [CVal "mop_no" REq 3; CVal "func1" REq 1; CVal "func2" REq 0; CVal "func4" REq 7; CVal "func3" REq 4; CVal "opcode" REq 0x73];
   mk_row "mop_r_4" f_MopRType [CVal "mop_no" REq 4; CVal "func1" REq 1; CVal "func2" REq 0; CVal "func4" REq 7; CVal "func3" REq 4; CVal "opcode" REq 0x73];
   mk_row "mop_r_5" f_MopRType [CVal "mop_no" REq 5; CVal "func1" REq 1; CVal "func2" REq 0; CVal "func4" REq 7; CVal "func3" REq 4; CVal "opcode" REq 0x73];
   mk_row "mop_r_6" f_MopRType [CVal "mop_no" REq 6; CVal "func1" REq 1; CVal "func2" REq 0; CVal "func4" REq 7; CVal "func3" REq 4; CVal "opcode" REq 0x73];
   mk_row "mop_r_7" f_MopRType [CVal "mop_no" REq 7; CVal "func1" REq 1; CVal "func2" REq 0; CVal "func4" REq 7; CVal "func3" REq 4; CVal "opcode" REq 0x73];
   mk_row "mop_r_8" f_MopRType [CVal "mop_no" REq 8; CVal "func1" REq 1; CVal "func2" REq 0; CVal "func4" REq 7; CVal "func3" REq 4; CVal "opcode" REq 0x73];
   mk_row "mop_r_9" f_MopRType [CVal "mop_no" REq 9; CVal "func1" REq 1; CVal "func2" REq 0; CVal "func4" REq 7; CVal "func3" REq 4; CVal "opcode" REq 0x73];
   mk_row "mop_r_10" f_MopRType [CVal "mop_no" REq 0xa; CVal "func1" REq 1; CVal "func2" REq 0; CVal "func4" REq 7; CVal "func3" REq 4; CVal "opcode" REq 0x73];
   mk_row "mop_r_11" f_MopRType [CVal "mop_no" REq 0xb; CVal "func1" REq 1; CVal "func2" REq 0; CVal "func4" REq 7; CVal "func3" REq 4; CVal "opcode" REq 0x73];
   mk_row "mop_r_12" f_MopRType [CVal "mop_no" REq 0xc; CVal "func1" REq 1; CVal "func2" REq 0; CVal "func4" REq 7; CVal "func3" REq 4; CVal "opcode" REq 0x73];
   mk_row "mop_r_13" f_MopRType [CVal "mop_no" REq 0xd; CVal "func1" REq 1; CVal "func2" REq 0; CVal "func4" REq 7; CVal "func3" REq 4; CVal "opcode" REq 0x73];
   mk_row "mop_r_14" f_MopRType [CVal "mop_no" REq 0xe; CVal "func1" REq 1; CVal "func2" REq 0; CVal "func4" REq 7; CVal "func3" REq 4; CVal "opcode" REq 0x73];
   mk_row "mop_r_15" f_MopRType [CVal "mop_no" REq 0xf; CVal "func1" REq 1; CVal "func2" REq 0; CVal "func4" REq 7; CVal "func3" REq 4; CVal "opcode" REq 0x73];
   mk_row "mop_r_16" f_MopRType [CVal "mop_no" REq 0x10; CVal "func1" REq 1; CVal "func2" REq 0; CVal "func4" REq 7; CVal "func3" REq 4; CVal "opcode" REq 0x73];
   mk_row "mop_r_17" f_MopRType [CVal "mop_no" REq 0x11; CVal "func1" REq 1; CVal "func2" REq 0; CVal "func4" REq 7; CVal "func3" REq 4; CVal "opcode" REq 0x73];
   mk_row "mop_r_18" f_MopRType [CVal "mop_no" REq 0x12; CVal "func1" REq 1; CVal "func2" REq 0; CVal "func4" REq 7; CVal "func3" REq 4; CVal "opcode" REq 0x73];
   mk_row "mop_r_19" f_MopRType [CVal "mop_no" REq 0x13; CVal "func1" REq 1; CVal "func2" REq 0; CVal "func4" REq 7; CVal "func3" REq 4; CVal "opcode" REq 0x73];
   mk_row "mop_r_20" f_MopRType [CVal "mop_no" REq 0x14; CVal "func1" REq 1; CVal "func2" REq 0; CVal "func4" REq 7; CVal "func3" REq 4; CVal "opcode" REq 0x73];
   mk_row "mop_r_21" f_MopRType [CVal "mop_no" REq 0x15; CVal "func1" REq 1; CVal "func2" REq 0; CVal "func4" REq 7; CVal "func3" REq 4; CVal "opcode" REq 0x73];
   mk_row "mop_r_22" f_MopRType [CVal "mop_no" REq 0x16; CVal "func1" REq 1; CVal "func2" REq 0; CVal "func4" REq 7; CVal "func3" REq 4; CVal "opcode" REq 0x73];
   mk_row "mop_r_23" f_MopRType [CVal "mop_no" REq 0x17; CVal "func1" REq 1; CVal "func2" REq 0; CVal "func4" REq 7; CVal "func3" REq 4; CVal "opcode" REq 0x73];
   mk_row "mop_r_24" f_MopRType [CVal "mop_no" REq 0x18; CVal "func1" REq 1; CVal "func2" REq 0; CVal "func4" REq 7; CVal "func3" REq 4; CVal "opcode" REq 0x73];
   mk_row "mop_r_25" f_MopRType [CVal "mop_no" REq 0x19; CVal "func1" REq 1; CVal "func2" REq 0; CVal "func4" REq 7; CVal "func3" REq 4; CVal "opcode" REq 0x73];
   mk_row "mop_r_26" f_MopRType [CVal "mop_no" REq 0x1a; CVal "func1" REq 1; CVal "func2" REq 0; CVal "func4" REq 7; CVal "func3" REq 4; CVal "opcode" REq 0x73];
   mk_row "mop_r_27" f_MopRType [CVal "mop_no" REq 0x1b; CVal "func1" REq 1; CVal "func2" REq 0; CVal "func4" REq 7; CVal "func3" REq 4; CVal "opcode" REq 0x73];
   mk_row "mop_r_28" f_MopRType [CVal "mop_no" REq 0x1c; CVal "func1" REq 1; CVal "func2" REq 0; CVal "func4" REq 7; CVal "func3" REq 4; CVal "opcode" REq 0x73];
   mk_row "mop_r_29" f_MopRType [CVal "mop_no" REq 0x1d; CVal "func1" REq 1; CVal "func2" REq 0; CVal "func4" REq 7; CVal "func3" REq 4; CVal "opcode" REq 0x73];
   mk_row "mop_r_30" f_MopRType [CVal "mop_no" REq 0x1e; CVal "func1" REq 1; CVal "func2" REq 0; CVal "func4" REq 7; CVal "func3" REq 4; CVal "opcode" REq 0x73];
   mk_row "mop_r_31" f_MopRType [CVal "mop_no" REq 0x1f; CVal "func1" REq 1; CVal "func2" REq 0; CVal "func4" REq 7; CVal "func3" REq 4; CVal "opcode" REq 0x73];
   mk_row "mop_rr_0" f_MopRRType [CVal "mop_no" REq 0; CVal "func1h" REq 1; CVal "func2" REq 0; CVal "func1l" REq 1; CVal "opcode" REq 0x73];
   mk_row "mop_rr_1" f_MopRRType [CVal "mop_no" REq 1; CVal "func1h" REq 1; CVal "func2" REq 0; CVal "func1l" REq 1; CVal "opcode" REq 0x73];
   mk_row "mop_rr_2" f_MopRRType [CVal "mop_no" REq 2; CVal "func1h" REq 1; CVal "func2" REq 0; CVal "func1l" REq 1; CVal "opcode" REq 0x73];
   mk_row "mop_rr_3" f_MopRRType [CVal "mop_no" REq 3; CVal "func1h" REq 1; CVal "func2" REq 0; CVal "func1l" REq 1; CVal "opcode" REq 0x73];
   mk_row "mop_rr_4" f_MopRRType [CVal "mop_no" REq 4; CVal "func1h" REq 1; CVal "func2" REq 0; CVal "func1l" REq 1; CVal "opcode" REq 0x73];
   mk_row "mop_rr_5" f_MopRRType [CVal "mop_no" REq 5; CVal "func1h" REq 1; CVal "func2" REq 0; CVal "func1l" REq 1; CVal "opcode" REq 0x73];
   mk_row "mop_rr_6" f_MopRRType [CVal "mop_no" REq 6; CVal "func1h" REq 1; CVal "func2" REq 0; CVal "func1l" REq 1; CVal "opcode" REq 0x73];
   mk_row "mop_rr_7" f_MopRRType [CVal "mop_no" REq 7; CVal "func1h" REq 1; CVal "func2" REq 0; CVal "func1l" REq 1; CVal "opcode" REq 0x73]].

(** riscv_zhintpause.bin_fmt:17-19, instruction group RiscVZhintpause. *)
Definition g_RiscVZhintpause : list row := [
   mk_row "pause" f_Fence [CVal "fm" REq 0; CVal "pred" REq 1; CVal "succ" REq 0; CVal "rd" REq 0; CVal "rs1" REq 0; CVal "opcode" REq 0xf]].

(** riscv_zihintntl.bin_fmt:17-22, instruction group RiscVZihintntl. *)
Definition g_RiscVZihintntl : list row := [
   mk_row "ntl_p1" f_RType [CVal "func7" REq 0; CVal "rs1" REq 0; CVal "rs2" REq 2; CVal "func3" REq 0; CVal "rd" REq 0; CVal "opcode" REq 0x33];
   mk_row "ntl_pall" f_RType [CVal "func7" REq 0; CVal "rs1" REq 0; CVal "rs2" REq 3; CVal "func3" REq 0; CVal "rd" REq 0; CVal "opcode" REq 0x33];
   mk_row "ntl_s1" f_RType [CVal "func7" REq 0; CVal "rs1" REq 0; CVal "rs2" REq 4; CVal "func3" REq 0; CVal "rd" REq 0; CVal "opcode" REq 0x33];
   mk_row "ntl_all" f_RType [CVal "func7" REq 0; CVal "rs1" REq 0; CVal "rs2" REq 5; CVal "func3" REq 0; CVal "rd" REq 0; CVal "opcode" REq 0x33]].

(** riscv_zicbop.bin_fmt:20-24, instruction group RiscVZicbop. *)
Definition g_RiscVZicbop : list row := [
   mk_row "prefetch_i" f_ZICBOP [CVal "func5" REq 0; CVal "func3" REq 6; CVal "imm5" REq 0; CVal "op" REq 0x13];
   mk_row "prefetch_r" f_ZICBOP [CVal "func5" REq 1; CVal "func3" REq 6; CVal "imm5" REq 0; CVal "op" REq 0x12];
   mk_row "prefetch_w" f_ZICBOP [CVal "func5" REq 3; CVal "func3" REq 6; CVal "imm5" REq 0; CVal "op" REq 0x11]].

(** riscv_zimop.bin_fmt:64-73, instruction group RiscVZcmop. *)
Definition g_RiscVZcmop : list row := [
   mk_row "c_mop_1" f_CMopType [CVal "func4" REq 6; CVal "num" REq 1; CVal "rd" REq 0; CVal "op" REq 1];
   mk_row "c_mop_3" f_CMopType [CVal "func4" REq 6; CVal "num" REq 3; CVal "rd" REq 0; CVal "op" REq 1];
   mk_row "c_mop_5" f_CMopType [CVal "func4" REq 6; CVal "num" REq 5; CVal "rd" REq 0; CVal "op" REq 1];
   mk_row "c_mop_7" f_CMopType [CVal "func4" REq 6; CVal "num" REq 7; CVal "rd" REq 0; CVal "op" REq 1];
   mk_row "c_mop_9" f_CMopType [CVal "func4" REq 6; CVal "num" REq 9; CVal "rd" REq 0; CVal "op" REq 1];
   mk_row "c_mop_11" f_CMopType [CVal "func4" REq 6; CVal "num" REq 0xb; CVal "rd" REq 0; CVal "op" REq 1];
   mk_row "c_mop_13" f_CMopType [CVal "func4" REq 6; CVal "num" REq 0xd; CVal "rd" REq 0; CVal "op" REq 1];
   mk_row "c_mop_15" f_CMopType [CVal "func4" REq 6; CVal "num" REq 0xf; CVal "rd" REq 0; CVal "op" REq 1]].

(** riscv_zihintntl.bin_fmt:24-29, instruction group RiscVCZihintntl. *)
Definition g_RiscVCZihintntl : list row := [
   mk_row "c_ntl_p1" f_CR [CVal "func4" REq 9; CVal "rs1" REq 0; CVal "rs2" REq 2; CVal "op" REq 2];
   mk_row "c_ntl_pall" f_CR [CVal "func4" REq 9; CVal "rs1" REq 0; CVal "rs2" REq 3; CVal "op" REq 2];
   mk_row "c_ntl_s1" f_CR [CVal "func4" REq 9; CVal "rs1" REq 0; CVal "rs2" REq 4; CVal "op" REq 2];
   mk_row "c_ntl_all" f_CR [CVal "func4" REq 9; CVal "rs1" REq 0; CVal "rs2" REq 5; CVal "op" REq 2]].

(** riscv_zc.bin_fmt:23-51, instruction group RiscVCZca. *)
Definition g_RiscVCZca : list row := [
   mk_row "caddi4spn" f_CIW [CVal "func3" REq 0; CVal "op" REq 0; CVal "imm8" RNe 0];
   mk_row "clw" f_CL [CVal "func3" REq 2; CVal "op" REq 0];
   mk_row "csw" f_CS [CVal "func3" REq 6; CVal "op" REq 0];
   mk_row "cnop" f_CI [CVal "func3" REq 0; CVal "imm1" REq 0; CVal "rs1" REq 0; CVal "imm5" REq 0; CVal "op" REq 1];
   mk_row "caddi" f_CI [CVal "func3" REq 0; CVal "imm6" RNe 0; CVal "rd" RNe 0; CVal "op" REq 1];
   mk_row "cjal" f_CJ [CVal "func3" REq 1; CVal "op" REq 1];
   mk_row "cli" f_CI [CVal "func3" REq 2; CVal "rd" RNe 0; CVal "op" REq 1];
   mk_row "caddi16sp" f_CI [CVal "func3" REq 3; CVal "rd" REq 2; CVal "op" REq 1];
   mk_row "clui" f_CI [CVal "func3" REq 3; CVal "rd" RNe 0; CVal "rd" RNe 2; CVal "op" REq 1];
   mk_row "csrli" f_CB [CVal "func3" REq 4; CVal "imm3" REq 0; CVal "op" REq 1];
   mk_row "csrai" f_CB [CVal "func3" REq 4; CVal "imm3" REq 1; CVal "op" REq 1];
   mk_row "candi" f_CB [CVal "func3" REq 4; CVal "func2" REq 2; CVal "op" REq 1];
   mk_row "csub" f_CA [CVal "func6" REq 0x23; CVal "func2" REq 0; CVal "op" REq 1];
   mk_row "cxor" f_CA [CVal "func6" REq 0x23; CVal "func2" REq 1; CVal "op" REq 1];
   mk_row "cor" f_CA [CVal "func6" REq 0x23; CVal "func2" REq 2; CVal "op" REq 1];
   mk_row "cand" f_CA [CVal "func6" REq 0x23; CVal "func2" REq 3; CVal "op" REq 1];
   mk_row "cj" f_CJ [CVal "func3" REq 5; CVal "op" REq 1];
   mk_row "cbeqz" f_CB [CVal "func3" REq 6; CVal "op" REq 1];
   mk_row "cbnez" f_CB [CVal "func3" REq 7; CVal "op" REq 1];
   mk_row "cslli" f_CI [CVal "func3" REq 0; CVal "imm1" REq 0; CVal "rs1" RNe 0; CVal "op" REq 2];
   mk_row "clwsp" f_CI [CVal "func3" REq 2; CVal "rd" RNe 0; CVal "op" REq 2];
   mk_row "cjr" f_CR [CVal "func4" REq 8; CVal "rs1" RNe 0; CVal "rs2" REq 0; CVal "op" REq 2];
   mk_row "cmv" f_CR [CVal "func4" REq 8; CVal "rs1" RNe 0; CVal "rs2" RNe 0; CVal "op" REq 2];
   mk_row "cebreak" f_CR [CVal "func4" REq 9; CVal "rs1" REq 0; CVal "rs2" REq 0; CVal "op" REq 2];
   mk_row "cjalr" f_CR [CVal "func4" REq 9; CVal "rs1" RNe 0; CVal "rs2" REq 0; CVal "op" REq 2];
   mk_row "cadd" f_CR [CVal "func4" REq 9; CVal "rs1" RNe 0; CVal "rs2" RNe 0; CVal "op" REq 2];
   mk_row "cswsp" f_CSS [CVal "func3" REq 6; CVal "op" REq 2]].

(** riscv_zc.bin_fmt:54-59, instruction group RiscVCZcf. *)
Definition g_RiscVCZcf : list row := [
   mk_row "cflw" f_CL [CVal "func3" REq 3; CVal "op" REq 0];
   mk_row "cfsw" f_CS [CVal "func3" REq 7; CVal "op" REq 0];
   mk_row "cflwsp" f_CI [CVal "func3" REq 3; CVal "op" REq 2];
   mk_row "cfswsp" f_CSS [CVal "func3" REq 7; CVal "op" REq 2]].

(** riscv_zc.bin_fmt:70-82, instruction group RiscVCZcb32. *)
Definition g_RiscVCZcb32 : list row := [
   mk_row "c_lbu" f_CLB [CVal "func6" REq 0x20; CVal "op" REq 0];
   mk_row "c_lhu" f_CLH [CVal "func6" REq 0x21; CVal "func1" REq 0; CVal "op" REq 0];
   mk_row "c_lh" f_CLH [CVal "func6" REq 0x21; CVal "func1" REq 1; CVal "op" REq 0];
   mk_row "c_sb" f_CSB [CVal "func6" REq 0x22; CVal "op" REq 0];
   mk_row "c_sh" f_CSH [CVal "func6" REq 0x23; CVal "func1" REq 0; CVal "op" REq 0];
   mk_row "c_zext_b" f_CU [CVal "func6" REq 0x27; CVal "func5" REq 0x18; CVal "op" REq 1];
   mk_row "c_sext_b" f_CU [CVal "func6" REq 0x27; CVal "func5" REq 0x19; CVal "op" REq 1];
   mk_row "c_zext_h" f_CU [CVal "func6" REq 0x27; CVal "func5" REq 0x1a; CVal "op" REq 1];
   mk_row "c_sext_h" f_CU [CVal "func6" REq 0x27; CVal "func5" REq 0x1b; CVal "op" REq 1];
   mk_row "c_not" f_CU [CVal "func6" REq 0x27; CVal "func5" REq 0x1d; CVal "op" REq 1];
   mk_row "c_mul" f_CA [CVal "func6" REq 0x27; CVal "func2" REq 2; CVal "op" REq 1]].

(** riscv_zc.bin_fmt:90-97, instruction group RiscVCZcmp. *)
Definition g_RiscVCZcmp : list row := [
   mk_row "cm_push" f_CMPP [CVal "func8" REq 0xb8; CVal "rlist" RGt 3; CVal "op" REq 2];
   mk_row "cm_pop" f_CMPP [CVal "func8" REq 0xba; CVal "rlist" RGt 3; CVal "op" REq 2];
   mk_row "cm_popret" f_CMPP [CVal "func8" REq 0xbe; CVal "rlist" RGt 3; CVal "op" REq 2];
   mk_row "cm_popretz" f_CMPP [CVal "func8" REq 0xbc; CVal "rlist" RGt 3; CVal "op" REq 2];
   mk_row "cm_mvsa01" f_CMMV [CVal "func6" REq 0x2b; CVal "func2" REq 1; CFld "rs1p" RNe "rs2p"; CVal "op" REq 2];
   mk_row "cm_mva01s" f_CMMV [CVal "func6" REq 0x2b; CVal "func2" REq 3; CVal "op" REq 2]].

(** riscv_zc.bin_fmt:100-103, instruction group RiscVCZcmt. *)
Definition g_RiscVCZcmt : list row := [
   mk_row "cm_jt" f_CMJT [CVal "func6" REq 0x28; CVal "index" RLt 0x20; CVal "op" REq 2];
   mk_row "cm_jalt" f_CMJT [CVal "func6" REq 0x28; CVal "index" RGe 0x20; CVal "op" REq 2]].

(** riscv_zfh32.bin_fmt:26-57, instruction group RiscVZfh32Inst32. *)
Definition g_RiscVZfh32Inst32 : list row := [
   mk_row "flh" f_IType [CVal "func3" REq 1; CVal "opcode" REq 7];
   mk_row "fsh" f_SType [CVal "func3" REq 1; CVal "opcode" REq 0x27];
   mk_row "fmv_xh" f_RType [CVal "func7" REq 0x72; CVal "rs2" REq 0; CVal "func3" REq 0; CVal "opcode" REq 0x53];
   mk_row "fmv_hx" f_RType [CVal "func7" REq 0x7a; CVal "rs2" REq 0; CVal "func3" REq 0; CVal "opcode" REq 0x53];
   mk_row "fcvt_sh" f_RType [CVal "func7" REq 0x20; CVal "rs2" REq 2; CVal "opcode" REq 0x53];
   mk_row "fcvt_hs" f_RType [CVal "func7" REq 0x22; CVal "rs2" REq 0; CVal "opcode" REq 0x53];
   mk_row "fcvt_dh" f_RType [CVal "func7" REq 0x21; CVal "rs2" REq 2; CVal "opcode" REq 0x53];
   mk_row "fcvt_hd" f_RType [CVal "func7" REq 0x22; CVal "rs2" REq 1; CVal "opcode" REq 0x53];
   mk_row "fadd_h" f_RType [CVal "func7" REq 2; CVal "opcode" REq 0x53];
   mk_row "fsub_h" f_RType [CVal "func7" REq 6; CVal "opcode" REq 0x53];
   mk_row "fmul_h" f_RType [CVal "func7" REq 0xa; CVal "opcode" REq 0x53];
   mk_row "fdiv_h" f_RType [CVal "func7" REq 0xe; CVal "opcode" REq 0x53];
   mk_row "fmin_h" f_RType [CVal "func7" REq 0x16; CVal "func3" REq 0; CVal "opcode" REq 0x53];
   mk_row "fmax_h" f_RType [CVal "func7" REq 0x16; CVal "func3" REq 1; CVal "opcode" REq 0x53];
   mk_row "fsgnj_h" f_RType [CVal "func7" REq 0x12; CVal "func3" REq 0; CVal "opcode" REq 0x53];
   mk_row "fsgnjn_h" f_RType [CVal "func7" REq 0x12; CVal "func3" REq 1; CVal "opcode" REq 0x53];
   mk_row "fsgnjx_h" f_RType [CVal "func7" REq 0x12; CVal "func3" REq 2; CVal "opcode" REq 0x53];
   mk_row "fsqrt_h" f_RType [CVal "func7" REq 0x2e; CVal "rs2" REq 0; CVal "opcode" REq 0x53];
   mk_row "fcvt_hw" f_RType [CVal "func7" REq 0x6a; CVal "rs2" REq 0; CVal "opcode" REq 0x53];
   mk_row "fcvt_wh" f_RType [CVal "func7" REq 0x62; CVal "rs2" REq 0; CVal "opcode" REq 0x53];
   mk_row "fcvt_hwu" f_RType [CVal "func7" REq 0x6a; CVal "rs2" REq 1; CVal "opcode" REq 0x53];
   mk_row "fcvt_wuh" f_RType [CVal "func7" REq 0x62; CVal "rs2" REq 1; CVal "opcode" REq 0x53];
   mk_row "fcmpeq_h" f_RType [CVal "func7" REq 0x52; CVal "func3" REq 2; CVal "opcode" REq 0x53];
   mk_row "fcmplt_h" f_RType [CVal "func7" REq 0x52; CVal "func3" REq 1; CVal "opcode" REq 0x53];
   mk_row "fcmple_h" f_RType [CVal "func7" REq 0x52; CVal "func3" REq 0; CVal "opcode" REq 0x53];
   mk_row "fclass_h" f_RType [CVal "func7" REq 0x72; CVal "rs2" REq 0; CVal "func3" REq 1; CVal "opcode" REq 0x53];
   mk_row "fmadd_h" f_R4Type [CVal "func2" REq 2; CVal "opcode" REq 0x43];
   mk_row "fmsub_h" f_R4Type [CVal "func2" REq 2; CVal "opcode" REq 0x47];
   mk_row "fnmsub_h" f_R4Type [CVal "func2" REq 2; CVal "opcode" REq 0x4b];
   mk_row "fnmadd_h" f_R4Type [CVal "func2" REq 2; CVal "opcode" REq 0x4f]].

(** riscv_zfh64.bin_fmt:26-61, instruction group RiscVZfh64Inst32. *)
Definition g_RiscVZfh64Inst32 : list row := [
   mk_row "flh" f_IType [CVal "func3" REq 1; CVal "opcode" REq 7];
   mk_row "fsh" f_SType [CVal "func3" REq 1; CVal "opcode" REq 0x27];
   mk_row "fmv_xh" f_RType [CVal "func7" REq 0x72; CVal "rs2" REq 0; CVal "func3" REq 0; CVal "opcode" REq 0x53];
   mk_row "fmv_hx" f_RType [CVal "func7" REq 0x7a; CVal "rs2" REq 0; CVal "func3" REq 0; CVal "opcode" REq 0x53];
   mk_row "fcvt_sh" f_RType [CVal "func7" REq 0x20; CVal "rs2" REq 2; CVal "opcode" REq 0x53];
   mk_row "fcvt_hs" f_RType [CVal "func7" REq 0x22; CVal "rs2" REq 0; CVal "opcode" REq 0x53];
   mk_row "fcvt_dh" f_RType [CVal "func7" REq 0x21; CVal "rs2" REq 2; CVal "opcode" REq 0x53];
   mk_row "fcvt_hd" f_RType [CVal "func7" REq 0x22; CVal "rs2" REq 1; CVal "opcode" REq 0x53];
   mk_row "fadd_h" f_RType [CVal "func7" REq 2; CVal "opcode" REq 0x53];
   mk_row "fsub_h" f_RType [CVal "func7" REq 6; CVal "opcode" REq 0x53];
   mk_row "fmul_h" f_RType [CVal "func7" REq 0xa; CVal "opcode" REq 0x53];
   mk_row "fdiv_h" f_RType [CVal "func7" REq 0xe; CVal "opcode" REq 0x53];
   mk_row "fmin_h" f_RType [CVal "func7" REq 0x16; CVal "func3" REq 0; CVal "opcode" REq 0x53];
   mk_row "fmax_h" f_RType [CVal "func7" REq 0x16; CVal "func3" REq 1; CVal "opcode" REq 0x53];
   mk_row "fsgnj_h" f_RType [CVal "func7" REq 0x12; CVal "func3" REq 0; CVal "opcode" REq 0x53];
   mk_row "fsgnjn_h" f_RType [CVal "func7" REq 0x12; CVal "func3" REq 1; CVal "opcode" REq 0x53];
   mk_row "fsgnjx_h" f_RType [CVal "func7" REq 0x12; CVal "func3" REq 2; CVal "opcode" REq 0x53];
   mk_row "fsqrt_h" f_RType [CVal "func7" REq 0x2e; CVal "rs2" REq 0; CVal "opcode" REq 0x53];
   mk_row "fcvt_hw" f_RType [CVal "func7" REq 0x6a; CVal "rs2" REq 0; CVal "opcode" REq 0x53];
   mk_row "fcvt_wh" f_RType [CVal "func7" REq 0x62; CVal "rs2" REq 0; CVal "opcode" REq 0x53];
   mk_row "fcvt_hwu" f_RType [CVal "func7" REq 0x6a; CVal "rs2" REq 1; CVal "opcode" REq 0x53];
   mk_row "fcvt_wuh" f_RType [CVal "func7" REq 0x62; CVal "rs2" REq 1; CVal "opcode" REq 0x53];
   mk_row "fcmpeq_h" f_RType [CVal "func7" REq 0x52; CVal "func3" REq 2; CVal "opcode" REq 0x53];
   mk_row "fcmplt_h" f_RType [CVal "func7" REq 0x52; CVal "func3" REq 1; CVal "opcode" REq 0x53];
   mk_row "fcmple_h" f_RType [CVal "func7" REq 0x52; CVal "func3" REq 0; CVal "opcode" REq 0x53];
   mk_row "fclass_h" f_RType [CVal "func7" REq 0x72; CVal "rs2" REq 0; CVal "func3" REq 1; CVal "opcode" REq 0x53];
   mk_row "fmadd_h" f_R4Type [CVal "func2" REq 2; CVal "opcode" REq 0x43];
   mk_row "fmsub_h" f_R4Type [CVal "func2" REq 2; CVal "opcode" REq 0x47];
   mk_row "fnmsub_h" f_R4Type [CVal "func2" REq 2; CVal "opcode" REq 0x4b];
   mk_row "fnmadd_h" f_R4Type [CVal "func2" REq 2; CVal "opcode" REq 0x4f];
   mk_row "fcvt_lh" f_RType [CVal "func7" REq 0x62; CVal "rs2" REq 2; CVal "opcode" REq 0x53];
   mk_row "fcvt_luh" f_RType [CVal "func7" REq 0x62; CVal "rs2" REq 3; CVal "opcode" REq 0x53];
   mk_row "fcvt_hl" f_RType [CVal "func7" REq 0x6a; CVal "rs2" REq 2; CVal "opcode" REq 0x53];
   mk_row "fcvt_hlu" f_RType [CVal "func7" REq 0x6a; CVal "rs2" REq 3; CVal "opcode" REq 0x53]].

(** riscv_zvbb.bin_fmt:27-37, instruction group RiscVZvkbInst32. *)
Definition g_RiscVZvkbInst32 : list row := [
   mk_row "vandn_vv" f_VArith [CVal "func6" REq 1; CVal "func3" REq 0; CVal "opcode" REq 0x57];
   mk_row "vandn_vx" f_VArith [CVal "func6" REq 1; CVal "func3" REq 4; CVal "opcode" REq 0x57];
   mk_row "vbrev8_v" f_VArith [CVal "func6" REq 0x12; CVal "func3" REq 2; CVal "opcode" REq 0x57; CVal "vs1" REq 8];
   mk_row "vrev8_v" f_VArith [CVal "func6" REq 0x12; CVal "func3" REq 2; CVal "opcode" REq 0x57; CVal "vs1" REq 9];
   mk_row "vrol_vv" f_VArith [CVal "func6" REq 0x15; CVal "func3" REq 0; CVal "opcode" REq 0x57];
   mk_row "vrol_vx" f_VArith [CVal "func6" REq 0x15; CVal "func3" REq 4; CVal "opcode" REq 0x57];
   mk_row "vror_vv" f_VArith [CVal "func6" REq 0x14; CVal "func3" REq 0; CVal "opcode" REq 0x57];
   mk_row "vror_vx" f_VArith [CVal "func6" REq 0x14; CVal "func3" REq 4; CVal "opcode" REq 0x57];
   mk_row "vror_vi" f_VArith [CVal "func5" REq 0xa; CVal "func3" REq 3; CVal "opcode" REq 0x57]].

(** riscv_zvbb.bin_fmt:39-47, instruction group RiscVBasicBitInst32. *)
Definition g_RiscVBasicBitInst32 : list row := [
   mk_row "vbrev_v" f_VArith [CVal "func6" REq 0x12; CVal "func3" REq 2; CVal "opcode" REq 0x57; CVal "vs1" REq 0xa];
   mk_row "vclz_v" f_VArith [CVal "func6" REq 0x12; CVal "func3" REq 2; CVal "opcode" REq 0x57; CVal "vs1" REq 0xc];
   mk_row "vctz_v" f_VArith [CVal "func6" REq 0x12; CVal "func3" REq 2; CVal "opcode" REq 0x57; CVal "vs1" REq 0xd];
   mk_row "vcpop_v" f_VArith [CVal "func6" REq 0x12; CVal "func3" REq 2; CVal "opcode" REq 0x57; CVal "vs1" REq 0xe];
   mk_row "vwsll_vv" f_VArith [CVal "func6" REq 0x35; CVal "func3" REq 0; CVal "opcode" REq 0x57];
   mk_row "vwsll_vx" f_VArith [CVal "func6" REq 0x35; CVal "func3" REq 4; CVal "opcode" REq 0x57];
   mk_row "vwsll_vi" f_VArith [CVal "func6" REq 0x35; CVal "func3" REq 3; CVal "opcode" REq 0x57]].

(** riscv32g.bin_fmt:16-40: RiscVGInst32 of decoder RiscV32G. *)
Definition d_RiscV32G : list row := g_RiscVIInstBase32 ++ g_RiscVIHints32 ++ g_RiscVZifenceiInst32 ++ g_RiscVZicsrInst32 ++ g_RiscVMInst32 ++ g_RiscVAInst32 ++ g_RiscVFInst32 ++ g_RiscVDInst32 ++ g_RiscVPrivInst32.

(** riscv64g.bin_fmt:16-29: RiscVGInst32 of decoder RiscV64G. *)
Definition d_RiscV64G : list row := g_RiscVGInstBase32 ++ g_RiscVGHints32.

(** riscv32g.bin_fmt:255: RiscVCInst16, the 16-bit part of every RV32 decoder but RVM23. *)
Definition d_RiscV32C : list row := g_RiscVCInstBase16 ++ g_RiscVCHints16.

(** riscv64g.bin_fmt:264: RiscVCInst16, the 16-bit part of every RV64 decoder. *)
Definition d_RiscV64C : list row := g_RiscVCInstBase16_64 ++ g_RiscVCHints16_64.

(** riscv32gzb.bin_fmt:15-25: RiscV32GZBInst32. *)
Definition d_RiscV32GZB : list row := g_RiscVIInstBase32 ++ g_RiscVIHints32 ++ g_RiscVZifenceiInst32 ++ g_RiscVZicsrInst32 ++ g_RiscVMInst32 ++ g_RiscVAInst32 ++ g_RiscVFInst32 ++ g_RiscVDInst32 ++ g_RiscVPrivInst32 ++ g_RiscVZbaInst32 ++ g_RiscVZbbInst32 ++ g_RiscVZbbInst32Only ++ g_RiscVZbbImmInst32 ++ g_RiscVZbcInst32 ++ g_RiscVZbsInst32 ++ g_RiscVZbsImmInst32.

(** riscv64gzb.bin_fmt:16-26: RiscV64GZBInst32. *)
Definition d_RiscV64GZB : list row := g_RiscVGInstBase32 ++ g_RiscVGHints32 ++ g_RiscVZbaInst32 ++ g_RiscVZbaInst64 ++ g_RiscVZbbInst32 ++ g_RiscVZbbInst64 ++ g_RiscVZbcInst32 ++ g_RiscVZbsInst32 ++ g_RiscVZbsImmInst64.

(** riscv32v.bin_fmt:16-26: RiscV32GV. *)
Definition d_RiscV32GV : list row := g_RiscVIInstBase32 ++ g_RiscVIHints32 ++ g_RiscVZifenceiInst32 ++ g_RiscVZicsrInst32 ++ g_RiscVMInst32 ++ g_RiscVAInst32 ++ g_RiscVFInst32 ++ g_RiscVDInst32 ++ g_RiscVPrivInst32 ++ g_RiscVVInst32.

(** riscv64v.bin_fmt:16-26: RiscV64GV. *)
Definition d_RiscV64GV : list row := g_RiscVGInstBase32 ++ g_RiscVGHints32 ++ g_RiscVVInst32.

(** riscv32v.bin_fmt:28-39: RiscV32GVZB. *)
Definition d_RiscV32GVZB : list row := g_RiscVIInstBase32 ++ g_RiscVIHints32 ++ g_RiscVZifenceiInst32 ++ g_RiscVZicsrInst32 ++ g_RiscVMInst32 ++ g_RiscVAInst32 ++ g_RiscVFInst32 ++ g_RiscVDInst32 ++ g_RiscVPrivInst32 ++ g_RiscVVInst32 ++ g_RiscVZbaInst32 ++ g_RiscVZbbInst32 ++ g_RiscVZbcInst32 ++ g_RiscVZbsInst32.

(** riscv64v.bin_fmt:28-40: RiscV64GVZBInst32. *)
Definition d_RiscV64GVZB : list row := g_RiscVGInstBase32 ++ g_RiscVGHints32 ++ g_RiscVVInst32 ++ g_RiscVZbaInst32 ++ g_RiscVZbaInst64 ++ g_RiscVZbbInst32 ++ g_RiscVZbbInst64 ++ g_RiscVZbcInst32 ++ g_RiscVZbsInst32 ++ g_RiscVZbsImmInst64.

(** rvm23.bin_fmt:22-37: RVM23Inst32. *)
Definition d_RVM23Inst32 : list row := g_RiscVIInstBase32 ++ g_RiscVIHints32 ++ g_RiscVZifenceiInst32 ++ g_RiscVZicsrInst32 ++ g_RiscVMInst32 ++ g_RiscVAInst32 ++ g_RiscVFInst32 ++ g_RiscVDInst32 ++ g_RiscVPrivInst32 ++ g_RiscVZbaInst32 ++ g_RiscVZbbInst32 ++ g_RiscVZbcInst32 ++ g_RiscVZbsInst32 ++ g_RiscVZicond ++ g_RiscVZimop ++ g_RiscVZhintpause ++ g_RiscVZihintntl ++ g_RiscVZicbop.

(** rvm23.bin_fmt:38-46: RVM23Inst16. *)
Definition d_RVM23Inst16 : list row := g_RiscVZcmop ++ g_RiscVCZihintntl ++ g_RiscVCZca ++ g_RiscVCZcf ++ g_RiscVCZcb32 ++ g_RiscVCZcmp ++ g_RiscVCZcmt.

(** riscv_zfh32.bin_fmt:17-24: RiscVZfhInst32. *)
Definition d_ZFH32 : list row := g_RiscVZfh32Inst32.

(** riscv_zfh64.bin_fmt:17-24: RiscVZfhInst32. *)
Definition d_ZFH64 : list row := g_RiscVZfh64Inst32.

(** riscv_zvbb.bin_fmt:18-25: RiscVZvbbInst32. *)
Definition d_ZVBB : list row := g_RiscVZvkbInst32 ++ g_RiscVBasicBitInst32.
