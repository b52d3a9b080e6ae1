(** Which field of which instruction format of the code base implements which operand
    of the manual.  This is the only place where the model's format names meet the
    operands of the specification. *)
From Coq Require Import ZArith List String Bool.
From Verif Require Import FmtSpec FmtModel.
Import ListNotations.
Local Open Scope string_scope.

(** The operands of a format: its fields and overlays. *)
Definition operands_of (fm : format) : list string :=
  (map fd_name (fm_fields fm) ++ map ov_name (fm_overlays fm))%list.

Definition manual_fields : list (operand * format * string) :=
  [ (* 32-bit formats *)
    (o_imm_i, f_IType, "imm12"); (o_csr, f_IType, "u_imm12"); (o_zimm, f_IType, "i_uimm5");
    (o_imm_s, f_SType, "s_imm"); (o_imm_b, f_BType, "b_imm"); (o_imm_u, f_UType, "u_imm");
    (o_imm_j, f_JType, "j_imm"); (o_shamt5, f_RType, "r_uimm5");
    (o_shamt6, f_RSType, "r_uimm6"); (o_pred, f_Fence, "pred"); (o_succ, f_Fence, "succ");
    (o_aq, f_AType, "aq"); (o_rl, f_AType, "rl"); (o_rm, f_RType, "func3");
    (o_rm, f_R4Type, "func3");
    (o_rd, f_RType, "rd"); (o_rs1, f_RType, "rs1"); (o_rs2, f_RType, "rs2");
    (o_rd, f_RSType, "rd"); (o_rs1, f_RSType, "rs1");
    (o_rd, f_R4Type, "rd"); (o_rs1, f_R4Type, "rs1"); (o_rs2, f_R4Type, "rs2");
    (o_rs3, f_R4Type, "rs3");
    (o_rd, f_IType, "rd"); (o_rs1, f_IType, "rs1");
    (o_rs1, f_SType, "rs1"); (o_rs2, f_SType, "rs2");
    (o_rs1, f_BType, "rs1"); (o_rs2, f_BType, "rs2");
    (o_rd, f_UType, "rd"); (o_rd, f_JType, "rd");
    (o_rd, f_Fence, "rd"); (o_rs1, f_Fence, "rs1");
    (o_rd, f_AType, "rd"); (o_rs1, f_AType, "rs1"); (o_rs2, f_AType, "rs2");
    (o_rd, f_F12Type, "rd"); (o_rs1, f_F12Type, "rs1");
    (o_rs1, f_ZICBOP, "rs1");
    (o_mop_r, f_MopRType, "mop_no"); (o_rs1, f_MopRType, "rs1"); (o_rd, f_MopRType, "rd");
    (o_mop_rr, f_MopRRType, "mop_no"); (o_rs1, f_MopRRType, "rs1");
    (o_rs2, f_MopRRType, "rs2"); (o_rd, f_MopRRType, "rd");
    (o_vm, f_VMem, "vm"); (o_rs2, f_VMem, "rs2"); (o_rs1, f_VMem, "rs1");
    (o_vs2, f_VMem, "vs2"); (o_vd, f_VMem, "vd"); (o_vd, f_VMem, "vs3");
    (o_vm, f_VArith, "vm"); (o_vs2, f_VArith, "vs2"); (o_vs1, f_VArith, "vs1");
    (o_vd, f_VArith, "vd"); (o_rd, f_VArith, "rd"); (o_rs1, f_VArith, "rs1");
    (o_vsimm5, f_VArith, "simm5"); (o_vuimm5, f_VArith, "uimm5");
    (o_vuimm6, f_VArith, "uimm6"); (o_vuimm5, f_VConfig, "uimm5");
    (o_rd, f_VConfig, "rd"); (o_rs1, f_VConfig, "rs1"); (o_rs2, f_VConfig, "rs2");
    (* 16-bit formats *)
    (o_c_swsp, f_CSS, "css_imm_w"); (o_c_sdsp, f_CSS, "css_imm_d"); (o_c_rs2, f_CSS, "rs2");
    (o_c_rs1p, f_CL, "cl_rs1"); (o_c_rs2p, f_CL, "cl_rd");
    (o_c_lw, f_CL, "cl_imm_w"); (o_c_ld, f_CL, "cl_imm_d");
    (o_c_rs1p, f_CS, "cs_rs1"); (o_c_rs2p, f_CS, "cs_rs2");
    (o_c_lw, f_CS, "cs_imm_w"); (o_c_ld, f_CS, "cs_imm_d");
    (o_c_j, f_CJ, "jimm"); (o_c_rs1, f_CR, "rs1"); (o_c_rs2, f_CR, "rs2");
    (o_cb_shamt, f_CB, "shamt"); (o_c_b, f_CB, "bimm");
    (o_c_rs1, f_CI, "rd"); (o_ci_imm, f_CI, "imm6"); (o_ci_shamt, f_CI, "uimm6");
    (o_c_lui, f_CI, "imm18"); (o_c_addi16sp, f_CI, "ci_imm10");
    (o_c_lwsp, f_CI, "ci_imm_w"); (o_c_ldsp, f_CI, "ci_imm_d");
    (o_c_rs2p, f_CIW, "rd"); (o_c_addi4spn, f_CIW, "ciw_imm10");
    (o_c_rs1p, f_CA, "rs1"); (o_c_rs2p, f_CA, "rs2"); (o_c_rs1p, f_CA, "rd");
    (o_c_rs1p, f_CLB, "rs1"); (o_c_rs2p, f_CLB, "rd");
    (o_c_rs1p, f_CLH, "rs1"); (o_c_rs2p, f_CLH, "rd"); (o_c_lh, f_CLH, "uimm2");
    (o_c_rs1p, f_CSB, "rs1"); (o_c_rs2p, f_CSB, "rs2");
    (o_c_rs1p, f_CSH, "rs1"); (o_c_rs2p, f_CSH, "rs2"); (o_c_lh, f_CSH, "uimm2");
    (o_c_rs1p, f_CU, "rs1"); (o_c_rs1p, f_CU, "rd");
    (o_cm_rlist, f_CMPP, "rlist"); (o_cm_spimm, f_CMPP, "spimm");
    (o_cm_index, f_CMJT, "index") ].

(** Operands the formats get wrong; each is refuted separately. *)
Definition manual_misfits : list (operand * format * string) :=
  [ (o_c_lb, f_CLB, "uimm2"); (o_c_lb, f_CSB, "uimm2");   (* the two bits are swapped *)
    (o_prefetch, f_ZICBOP, "bop_uimm12");                 (* not sign extended *)
    (o_zimm11, f_VConfig, "zimm11"); (o_zimm10, f_VConfig, "zimm10"); (* sign extended *)
    (o_c_rs2p, f_CB, "rs2") ].                            (* names x16..x23 *)

(** The operand a Zcd offset is, according to the manual. *)
Definition zcd_spec (z : zcdop) : operand :=
  match z with ZCiUimm6x8 => o_c_ldsp | ZClUimm5x8 => o_c_ld | ZCssUimm6x8 => o_c_sdsp end.

(** The value the decoder stores for an operand value: immediates of type int32_t are
    32-bit two's complement (this only matters for the 32-bit U immediate). *)
Definition stored (a : asmop) (v : Z) : Z :=
  match a with UImm20 => Bits.sgn 32 v | _ => v end.

(** Operands whose setter writes somewhere else; each is refuted separately. *)
Definition wrong_setters : list asmop := [Frs2; ICssUimm6x4; ICssUimm6x8; Rm].

(** Registers of the manual whose names the assembler does not know. *)
Definition missing_csrs : list string :=
  ["vstart"; "vxsat"; "vxrm"; "vcsr"; "jvt"; "vl"; "vtype"; "vlenb"; "scounteren"; "mtvec";
   "hpmcounter21h"; "hpmcounter31h"].
