(** Model of the instruction formats (riscv_format32.bin_fmt,
    riscv_format16.bin_fmt), of the operand getters of the decoder
    (riscv_getters.h, riscv_zc_getters.h) and of the operand setters of the
    assembler (riscv_bin_setters.h).

    Trusted: the meaning of a format description.  The generator that turns it into
    Extract/Insert functions belongs to mpact-sim, not to /repo; its documented
    meaning is modelled: fields are listed from the most significant bit down, an
    overlay is the concatenation of its pieces from the most significant down,
    Extract reads those bits (sign extending a signed one), Insert writes the value's
    bits to the instruction bits the pieces name and skips constants. *)
From Coq Require Import ZArith List String Bool.
From Verif Require Import Bits FmtSpec.
Import ListNotations.
Local Open Scope Z_scope.
Local Open Scope string_scope.

(** Model only: syntax of a format description. *)
Record field := mk_field { fd_name : string; fd_signed : bool; fd_width : Z }.
(** Model only: a piece of an overlay: a whole field, bit ranges of a field
    (numbered from the field's low bit), bit ranges of the instruction, or a binary
    constant of [n] bits. *)
Inductive piece :=
  | PField (name : string)
  | PBits (name : string) (ranges : list (Z * Z))
  | PInst (ranges : list (Z * Z))
  | PConst (n : Z) (value : Z).
(** Model only. *)
Record overlay := mk_overlay
  { ov_name : string; ov_signed : bool; ov_width : Z; ov_pieces : list piece }.
(** Model only. *)
Record format := mk_format
  { fm_name : string; fm_width : Z; fm_fields : list field; fm_overlays : list overlay }.

(** riscv_format32.bin_fmt:19-23, format Inst32Format. *)
Definition f_Inst32Format : format := mk_format "Inst32Format" 32
  [mk_field "bits" false 25;
   mk_field "opcode" false 7]
  [].

(** riscv_format32.bin_fmt:25-35, format RType. *)
Definition f_RType : format := mk_format "RType" 32
  [mk_field "func7" false 7;
   mk_field "rs2" false 5;
   mk_field "rs1" false 5;
   mk_field "func3" false 3;
   mk_field "rd" false 5;
   mk_field "opcode" false 7]
  [mk_overlay "r_uimm5" false 5 [PField "rs2"]].

(** riscv_format32.bin_fmt:38-46, format RSType. *)
Definition f_RSType : format := mk_format "RSType" 32
  [mk_field "func6" false 6;
   mk_field "r_uimm6" false 6;
   mk_field "rs1" false 5;
   mk_field "func3" false 3;
   mk_field "rd" false 5;
   mk_field "opcode" false 7]
  [].

(** riscv_format32.bin_fmt:48-57, format R4Type. *)
Definition f_R4Type : format := mk_format "R4Type" 32
  [mk_field "rs3" false 5;
   mk_field "func2" false 2;
   mk_field "rs2" false 5;
   mk_field "rs1" false 5;
   mk_field "func3" false 3;
   mk_field "rd" false 5;
   mk_field "opcode" false 7]
  [].

(** riscv_format32.bin_fmt:59-69, format IType. *)
Definition f_IType : format := mk_format "IType" 32
  [mk_field "imm12" true 12;
   mk_field "rs1" false 5;
   mk_field "func3" false 3;
   mk_field "rd" false 5;
   mk_field "opcode" false 7]
  [mk_overlay "u_imm12" false 12 [PField "imm12"];
   mk_overlay "i_uimm5" false 5 [PField "rs1"]].

(** riscv_format32.bin_fmt:71-81, format SType. *)
Definition f_SType : format := mk_format "SType" 32
  [mk_field "imm7" false 7;
   mk_field "rs2" false 5;
   mk_field "rs1" false 5;
   mk_field "func3" false 3;
   mk_field "imm5" false 5;
   mk_field "opcode" false 7]
  [mk_overlay "s_imm" true 12 [PField "imm7"; PField "imm5"]].

(** riscv_format32.bin_fmt:83-93, format BType. *)
Definition f_BType : format := mk_format "BType" 32
  [mk_field "imm7" false 7;
   mk_field "rs2" false 5;
   mk_field "rs1" false 5;
   mk_field "func3" false 3;
   mk_field "imm5" false 5;
   mk_field "opcode" false 7]
  [mk_overlay "b_imm" true 13 [PBits "imm7" [(6, 6)]; PBits "imm5" [(0, 0)]; PBits "imm7" [(5, 0)]; PBits "imm5" [(4, 1)]; PConst 1 0]].

(** riscv_format32.bin_fmt:95-102, format UType. *)
Definition f_UType : format := mk_format "UType" 32
  [mk_field "imm20" false 20;
   mk_field "rd" false 5;
   mk_field "opcode" false 7]
  [mk_overlay "u_imm" false 32 [PField "imm20"; PConst 12 0]].

(** riscv_format32.bin_fmt:104-111, format JType. *)
Definition f_JType : format := mk_format "JType" 32
  [mk_field "imm20" false 20;
   mk_field "rd" false 5;
   mk_field "opcode" false 7]
  [mk_overlay "j_imm" true 21 [PBits "imm20" [(19, 19); (7, 0); (8, 8); (18, 9)]; PConst 1 0]].

(** riscv_format32.bin_fmt:113-122, format Fence. *)
Definition f_Fence : format := mk_format "Fence" 32
  [mk_field "fm" false 4;
   mk_field "pred" false 4;
   mk_field "succ" false 4;
   mk_field "rs1" false 5;
   mk_field "func3" false 3;
   mk_field "rd" false 5;
   mk_field "opcode" false 7]
  [].

(** riscv_format32.bin_fmt:124-134, format AType. *)
Definition f_AType : format := mk_format "AType" 32
  [mk_field "func5" false 5;
   mk_field "aq" false 1;
   mk_field "rl" false 1;
   mk_field "rs2" false 5;
   mk_field "rs1" false 5;
   mk_field "func3" false 3;
   mk_field "rd" false 5;
   mk_field "opcode" false 7]
  [].

(** riscv_format32.bin_fmt:136-143, format F12Type. *)
Definition f_F12Type : format := mk_format "F12Type" 32
  [mk_field "func12" false 12;
   mk_field "rs1" false 5;
   mk_field "func3" false 3;
   mk_field "rd" false 5;
   mk_field "opcode" false 7]
  [].

(** riscv_format32.bin_fmt:145-155, format ZICBOP. *)
Definition f_ZICBOP : format := mk_format "ZICBOP" 32
  [mk_field "offset" false 7;
   mk_field "func5" false 5;
   mk_field "rs1" false 5;
   mk_field "func3" false 3;
   mk_field "imm5" false 5;
   mk_field "op" false 7]
  [mk_overlay "bop_uimm12" false 12 [PField "offset"; PConst 5 0]].

(** riscv_format32.bin_fmt:157-171, format MopRType. *)
Definition f_MopRType : format := mk_format "MopRType" 32
  [mk_field "func1" false 1;
   mk_field "n_hi" false 1;
   mk_field "func2" false 2;
   mk_field "n_mid" false 2;
   mk_field "func4" false 4;
   mk_field "n_lo" false 2;
   mk_field "rs1" false 5;
   mk_field "func3" false 3;
   mk_field "rd" false 5;
   mk_field "opcode" false 7]
  [mk_overlay "mop_no" false 5 [PField "n_hi"; PField "n_mid"; PField "n_lo"]].

(** riscv_format32.bin_fmt:173-187, format MopRRType. *)
Definition f_MopRRType : format := mk_format "MopRRType" 32
  [mk_field "func1h" false 1;
   mk_field "n_hi" false 1;
   mk_field "func2" false 2;
   mk_field "n_lo" false 2;
   mk_field "func1l" false 1;
   mk_field "rs2" false 5;
   mk_field "rs1" false 5;
   mk_field "func3" false 3;
   mk_field "rd" false 5;
   mk_field "opcode" false 7]
  [mk_overlay "mop_no" false 3 [PField "n_hi"; PField "n_lo"]].

(** riscv_format32.bin_fmt:191-207, format VMem. *)
Definition f_VMem : format := mk_format "VMem" 32
  [mk_field "nf" false 3;
   mk_field "mew" false 1;
   mk_field "mop" false 2;
   mk_field "vm" false 1;
   mk_field "rs2" false 5;
   mk_field "rs1" false 5;
   mk_field "width" false 3;
   mk_field "vd" false 5;
   mk_field "opcode" false 7]
  [mk_overlay "lumop" false 5 [PField "rs2"];
   mk_overlay "sumop" false 5 [PField "rs2"];
   mk_overlay "vs2" false 5 [PField "rs2"];
   mk_overlay "vs3" false 5 [PField "vd"]].

(** riscv_format32.bin_fmt:209-226, format VArith. *)
Definition f_VArith : format := mk_format "VArith" 32
  [mk_field "func6" false 6;
   mk_field "vm" false 1;
   mk_field "vs2" false 5;
   mk_field "vs1" false 5;
   mk_field "func3" false 3;
   mk_field "vd" false 5;
   mk_field "opcode" false 7]
  [mk_overlay "uimm5" false 5 [PField "vs1"];
   mk_overlay "uimm6" false 6 [PBits "func6" [(0, 0)]; PField "vs1"];
   mk_overlay "func5" false 5 [PBits "func6" [(5, 1)]];
   mk_overlay "simm5" true 5 [PField "vs1"];
   mk_overlay "rd" false 5 [PField "vd"];
   mk_overlay "rs1" false 5 [PField "vs1"];
   mk_overlay "vd_mask" false 5 [PField "vd"]].

(** riscv_format32.bin_fmt:228-243, format VConfig. *)
Definition f_VConfig : format := mk_format "VConfig" 32
  [mk_field "top12" false 12;
   mk_field "rs1" false 5;
   mk_field "func3" false 3;
   mk_field "rd" false 5;
   mk_field "opcode" false 7]
  [mk_overlay "zimm11" true 11 [PBits "top12" [(10, 0)]];
   mk_overlay "func1" false 1 [PBits "top12" [(11, 11)]];
   mk_overlay "func2" false 2 [PBits "top12" [(11, 10)]];
   mk_overlay "func7" false 7 [PBits "top12" [(11, 5)]];
   mk_overlay "zimm10" true 10 [PBits "top12" [(9, 0)]];
   mk_overlay "uimm5" false 5 [PField "rs1"];
   mk_overlay "rs2" false 5 [PBits "top12" [(4, 0)]]].

(** riscv_format16.bin_fmt:20-25, format Inst16Format. *)
Definition f_Inst16Format : format := mk_format "Inst16Format" 16
  [mk_field "func3" false 3;
   mk_field "bits" false 11;
   mk_field "op" false 2]
  [].

(** riscv_format16.bin_fmt:27-36, format CSS. *)
Definition f_CSS : format := mk_format "CSS" 16
  [mk_field "func3" false 3;
   mk_field "imm6" false 6;
   mk_field "rs2" false 5;
   mk_field "op" false 2]
  [mk_overlay "css_imm_w" false 8 [PBits "imm6" [(1, 0)]; PBits "imm6" [(5, 2)]; PConst 2 0];
   mk_overlay "css_imm_d" false 9 [PBits "imm6" [(2, 0)]; PBits "imm6" [(5, 3)]; PConst 3 0]].

(** riscv_format16.bin_fmt:38-51, format CL. *)
Definition f_CL : format := mk_format "CL" 16
  [mk_field "func3" false 3;
   mk_field "imm3" false 3;
   mk_field "rs1p" false 3;
   mk_field "imm2" false 2;
   mk_field "rdp" false 3;
   mk_field "op" false 2]
  [mk_overlay "cl_rs1" false 5 [PConst 2 1; PField "rs1p"];
   mk_overlay "cl_rd" false 5 [PConst 2 1; PField "rdp"];
   mk_overlay "cl_imm_w" false 7 [PBits "imm2" [(0, 0)]; PField "imm3"; PBits "imm2" [(1, 1)]; PConst 2 0];
   mk_overlay "cl_imm_d" false 8 [PField "imm2"; PField "imm3"; PConst 3 0]].

(** riscv_format16.bin_fmt:53-66, format CS. *)
Definition f_CS : format := mk_format "CS" 16
  [mk_field "func3" false 3;
   mk_field "imm3" false 3;
   mk_field "rs1p" false 3;
   mk_field "imm2" false 2;
   mk_field "rs2p" false 3;
   mk_field "op" false 2]
  [mk_overlay "cs_rs1" false 5 [PConst 2 1; PField "rs1p"];
   mk_overlay "cs_rs2" false 5 [PConst 2 1; PField "rs2p"];
   mk_overlay "cs_imm_w" false 7 [PBits "imm2" [(0, 0)]; PField "imm3"; PBits "imm2" [(1, 1)]; PConst 2 0];
   mk_overlay "cs_imm_d" false 8 [PField "imm2"; PField "imm3"; PConst 3 0]].

(** riscv_format16.bin_fmt:68-75, format CJ. *)
Definition f_CJ : format := mk_format "CJ" 16
  [mk_field "func3" false 3;
   mk_field "imm11" false 11;
   mk_field "op" false 2]
  [mk_overlay "jimm" true 12 [PBits "imm11" [(10, 10); (6, 6); (8, 7); (4, 4); (5, 5); (0, 0); (9, 9); (3, 1)]; PConst 1 0]].

(** riscv_format16.bin_fmt:77-83, format CR. *)
Definition f_CR : format := mk_format "CR" 16
  [mk_field "func4" false 4;
   mk_field "rs1" false 5;
   mk_field "rs2" false 5;
   mk_field "op" false 2]
  [].

(** riscv_format16.bin_fmt:85-99, format CB. *)
Definition f_CB : format := mk_format "CB" 16
  [mk_field "func3" false 3;
   mk_field "imm3" false 3;
   mk_field "rs1p" false 3;
   mk_field "imm5" false 5;
   mk_field "op" false 2]
  [mk_overlay "func2" false 2 [PInst [(11, 11); (10, 10)]];
   mk_overlay "func5" false 5 [PInst [(12, 10); (6, 5)]];
   mk_overlay "shamt" false 6 [PInst [(12, 12); (6, 2)]];
   mk_overlay "rs2p" false 3 [PInst [(4, 2)]];
   mk_overlay "rs2" false 5 [PConst 2 2; PInst [(4, 2)]];
   mk_overlay "bimm" true 9 [PBits "imm3" [(2, 2)]; PBits "imm5" [(4, 3); (0, 0)]; PBits "imm3" [(1, 0)]; PBits "imm5" [(2, 1)]; PConst 1 0]].

(** riscv_format16.bin_fmt:101-116, format CI. *)
Definition f_CI : format := mk_format "CI" 16
  [mk_field "func3" false 3;
   mk_field "imm1" false 1;
   mk_field "rs1" false 5;
   mk_field "imm5" false 5;
   mk_field "op" false 2]
  [mk_overlay "rd" false 5 [PField "rs1"];
   mk_overlay "imm6" true 6 [PField "imm1"; PField "imm5"];
   mk_overlay "uimm6" false 6 [PField "imm1"; PField "imm5"];
   mk_overlay "imm18" true 18 [PField "imm1"; PField "imm5"; PConst 12 0];
   mk_overlay "ci_imm10" true 10 [PField "imm1"; PBits "imm5" [(2, 1); (3, 3); (0, 0); (4, 4)]; PConst 4 0];
   mk_overlay "ci_imm_w" false 8 [PBits "imm5" [(1, 0)]; PField "imm1"; PBits "imm5" [(4, 2)]; PConst 2 0];
   mk_overlay "ci_imm_d" false 9 [PBits "imm5" [(2, 0)]; PField "imm1"; PBits "imm5" [(4, 3)]; PConst 3 0]].

(** riscv_format16.bin_fmt:118-127, format CIW. *)
Definition f_CIW : format := mk_format "CIW" 16
  [mk_field "func3" false 3;
   mk_field "imm8" false 8;
   mk_field "rdp" false 3;
   mk_field "op" false 2]
  [mk_overlay "rd" false 5 [PConst 2 1; PField "rdp"];
   mk_overlay "ciw_imm10" false 10 [PBits "imm8" [(5, 2); (7, 6); (0, 0); (1, 1)]; PConst 2 0]].

(** riscv_format16.bin_fmt:129-140, format CA. *)
Definition f_CA : format := mk_format "CA" 16
  [mk_field "func6" false 6;
   mk_field "rs1p" false 3;
   mk_field "func2" false 2;
   mk_field "fs2p" false 3;
   mk_field "op" false 2]
  [mk_overlay "rs1" false 5 [PConst 2 1; PField "rs1p"];
   mk_overlay "rs2" false 5 [PConst 2 1; PField "fs2p"];
   mk_overlay "rd" false 5 [PConst 2 1; PField "rs1p"]].

(** riscv_format16.bin_fmt:143-153, format CLB. *)
Definition f_CLB : format := mk_format "CLB" 16
  [mk_field "func6" false 6;
   mk_field "rs1p" false 3;
   mk_field "uimm2" false 2;
   mk_field "rdp" false 3;
   mk_field "op" false 2]
  [mk_overlay "rs1" false 5 [PConst 2 1; PField "rs1p"];
   mk_overlay "rd" false 5 [PConst 2 1; PField "rdp"]].

(** riscv_format16.bin_fmt:155-167, format CLH. *)
Definition f_CLH : format := mk_format "CLH" 16
  [mk_field "func6" false 6;
   mk_field "rs1p" false 3;
   mk_field "func1" false 1;
   mk_field "uimm1" false 1;
   mk_field "rdp" false 3;
   mk_field "op" false 2]
  [mk_overlay "rs1" false 5 [PConst 2 1; PField "rs1p"];
   mk_overlay "rd" false 5 [PConst 2 1; PField "rdp"];
   mk_overlay "uimm2" false 2 [PField "uimm1"; PConst 1 0]].

(** riscv_format16.bin_fmt:169-179, format CMMV. *)
Definition f_CMMV : format := mk_format "CMMV" 16
  [mk_field "func6" false 6;
   mk_field "rs1p" false 3;
   mk_field "func2" false 2;
   mk_field "rs2p" false 3;
   mk_field "op" false 2]
  [mk_overlay "rs1" false 5 [PConst 2 1; PField "rs1p"];
   mk_overlay "rs2" false 5 [PConst 2 1; PField "rs2p"]].

(** riscv_format16.bin_fmt:181-187, format CMPP. *)
Definition f_CMPP : format := mk_format "CMPP" 16
  [mk_field "func8" false 8;
   mk_field "rlist" false 4;
   mk_field "spimm" false 2;
   mk_field "op" false 2]
  [].

(** riscv_format16.bin_fmt:190-200, format CSB. *)
Definition f_CSB : format := mk_format "CSB" 16
  [mk_field "func6" false 6;
   mk_field "rs1p" false 3;
   mk_field "uimm2" false 2;
   mk_field "rs2p" false 3;
   mk_field "op" false 2]
  [mk_overlay "rs1" false 5 [PConst 2 1; PField "rs1p"];
   mk_overlay "rs2" false 5 [PConst 2 1; PField "rs2p"]].

(** riscv_format16.bin_fmt:202-214, format CSH. *)
Definition f_CSH : format := mk_format "CSH" 16
  [mk_field "func6" false 6;
   mk_field "rs1p" false 3;
   mk_field "func1" false 1;
   mk_field "uimm1" false 1;
   mk_field "rs2p" false 3;
   mk_field "op" false 2]
  [mk_overlay "rs1" false 5 [PConst 2 1; PField "rs1p"];
   mk_overlay "rs2" false 5 [PConst 2 1; PField "rs2p"];
   mk_overlay "uimm2" false 2 [PField "uimm1"; PConst 1 0]].

(** riscv_format16.bin_fmt:216-225, format CU. *)
Definition f_CU : format := mk_format "CU" 16
  [mk_field "func6" false 6;
   mk_field "rs1p" false 3;
   mk_field "func5" false 5;
   mk_field "op" false 2]
  [mk_overlay "rs1" false 5 [PConst 2 1; PField "rs1p"];
   mk_overlay "rd" false 5 [PConst 2 1; PField "rs1p"]].

(** riscv_format16.bin_fmt:227-232, format CMJT. *)
Definition f_CMJT : format := mk_format "CMJT" 16
  [mk_field "func6" false 6;
   mk_field "index" false 8;
   mk_field "op" false 2]
  [].

(** riscv_format16.bin_fmt:234-240, format CMopType. *)
Definition f_CMopType : format := mk_format "CMopType" 16
  [mk_field "func4" false 4;
   mk_field "num" false 5;
   mk_field "rd" false 5;
   mk_field "op" false 2]
  [].

(** Model only: every format of the two files. *)
Definition all_formats : list format :=
  [f_Inst32Format; f_RType; f_RSType; f_R4Type; f_IType; f_SType; f_BType; f_UType; f_JType; f_Fence; f_AType; f_F12Type; f_ZICBOP; f_MopRType; f_MopRRType; f_VMem; f_VArith; f_VConfig; f_Inst16Format; f_CSS; f_CL; f_CS; f_CJ; f_CR; f_CB; f_CI; f_CIW; f_CA; f_CLB; f_CLH; f_CMMV; f_CMPP; f_CSB; f_CSH; f_CU; f_CMJT; f_CMopType].

(** Model only: where one bit of an operand comes from. *)
Inductive src := SB (k : Z) | SC (b : bool).

(** Model only: bits hi..lo, most significant first, above bit [base]. *)
Definition range_bits (base : Z) (r : Z * Z) : list src :=
  map (fun i => SB (base + i)) (rev (zrange_from (snd r) (Z.to_nat (fst r - snd r + 1)))).

(** Model only: position of the low bit of a field, its width and signedness; fields are
    listed from the most significant bit down. *)
Fixpoint field_at (fs : list field) (name : string) : option (Z * Z * bool) :=
  match fs with
  | [] => None
  | f :: r =>
    if String.eqb (fd_name f) name
    then Some (fold_right (fun g acc => fd_width g + acc) 0 r, fd_width f, fd_signed f)
    else field_at r name
  end.

(** Model only: the bits of an overlay piece. *)
Definition piece_bits (fm : format) (p : piece) : option (list src) :=
  match p with
  | PField n =>
    match field_at (fm_fields fm) n with
    | Some (lo, w, _) => Some (range_bits lo (w - 1, 0))
    | None => None
    end
  | PBits n rs =>
    match field_at (fm_fields fm) n with
    | Some (lo, _, _) => Some (flat_map (range_bits lo) rs)
    | None => None
    end
  | PInst rs => Some (flat_map (range_bits 0) rs)
  | PConst n v =>
    Some (map (fun i => SC (Z.testbit v i)) (rev (zrange n)))
  end.

(** Model only: all pieces, or nothing if one names a missing field. *)
Fixpoint pieces_bits (fm : format) (ps : list piece) : option (list src) :=
  match ps with
  | [] => Some []
  | p :: r =>
    match piece_bits fm p, pieces_bits fm r with
    | Some a, Some b => Some (a ++ b)%list
    | _, _ => None
    end
  end.

(** Model only: signedness, width and bits (most significant first) of a named field or
    overlay of a format. *)
Definition layout (fm : format) (name : string) : option (bool * Z * list src) :=
  match find (fun o => String.eqb (ov_name o) name) (fm_overlays fm) with
  | Some o =>
    match pieces_bits fm (ov_pieces o) with
    | Some l => Some (ov_signed o, ov_width o, l)
    | None => None
    end
  | None =>
    match field_at (fm_fields fm) name with
    | Some (lo, w, s) => Some (s, w, range_bits lo (w - 1, 0))
    | None => None
    end
  end.

(** Model only: one bit. *)
Definition src_bit (w : Z) (s : src) : bool :=
  match s with SB k => Z.testbit w k | SC b => b end.

(** Model only: the number made of the bits, most significant first. *)
Fixpoint gather (l : list src) (w : Z) : Z :=
  match l with
  | [] => 0
  | s :: r => Z.b2z (src_bit w s) * 2 ^ Z.of_nat (List.length r) + gather r w
  end.

(** Model only: write one bit of a word. *)
Definition put_bit (w k : Z) (b : bool) : Z := if b then Z.setbit w k else Z.clearbit w k.

(** Model only: write the bits of [v] (the low bits; most significant first) where the
    layout says; constants are skipped. *)
Fixpoint scatter (l : list src) (v w : Z) : Z :=
  match l with
  | [] => w
  | s :: r =>
    let w' := scatter r v w in
    match s with
    | SB k => put_bit w' k (Z.testbit v (Z.of_nat (List.length r)))
    | SC _ => w'
    end
  end.

(** Generated code Extractors::FORMAT::ExtractNAME (see the head of this file). *)
Definition extract (fm : format) (name : string) (w : Z) : Z :=
  match layout fm name with
  | Some (s, width, l) => if s then sgn width (gather l w) else gather l w
  | None => 0
  end.

(** Generated code Encoder::FORMAT::InsertNAME(value, word). *)
Definition insert (fm : format) (name : string) (v w : Z) : Z :=
  match layout fm name with
  | Some (_, _, l) => scatter l v w
  | None => w
  end.

(** * Assembler operand setters *)

(** riscv_bin_setters.h:47-61, kRegisterList. *)
Definition kRegisterList : list (string * Z) :=
  [("x0", 0); ("x1", 1); ("x2", 2); ("x3", 3); ("x4", 4); ("x5", 5); ("x6", 6); ("x7", 7); ("x8", 8); ("x9", 9); ("x10", 10); ("x11", 11); ("x12", 12); ("x13", 13); ("x14", 14); ("x15", 15); ("x16", 16); ("x17", 17); ("x18", 18); ("x19", 19); ("x20", 20); ("x21", 21); ("x22", 22); ("x23", 23); ("x24", 24); ("x25", 25); ("x26", 26); ("x27", 27); ("x28", 28); ("x29", 29); ("x30", 30); ("x31", 31); ("zero", 0); ("ra", 1); ("sp", 2); ("gp", 3); ("tp", 4); ("t0", 5); ("t1", 6); ("t2", 7); ("s0", 8); ("s1", 9); ("a0", 10); ("a1", 11); ("a2", 12); ("a3", 13); ("a4", 14); ("a5", 15); ("a6", 16); ("a7", 17); ("s2", 18); ("s3", 19); ("s4", 20); ("s5", 21); ("s6", 22); ("s7", 23); ("s8", 24); ("s9", 25); ("s10", 26); ("s11", 27); ("t3", 28); ("t4", 29); ("t5", 30); ("t6", 31)].

(** riscv_bin_setters.h:63-69, kCRegisterList. *)
Definition kCRegisterList : list (string * Z) :=
  [("x8", 8); ("x9", 9); ("x10", 10); ("x11", 11); ("x12", 12); ("x13", 13); ("x14", 14); ("x15", 15); ("s0", 8); ("s1", 9); ("a0", 10); ("a1", 11); ("a2", 12); ("a3", 13); ("a4", 14); ("a5", 15)].

(** riscv_bin_setters.h:71-85, kFRegisterList. *)
Definition kFRegisterList : list (string * Z) :=
  [("f0", 0); ("f1", 1); ("f2", 2); ("f3", 3); ("f4", 4); ("f5", 5); ("f6", 6); ("f7", 7); ("f8", 8); ("f9", 9); ("f10", 10); ("f11", 11); ("f12", 12); ("f13", 13); ("f14", 14); ("f15", 15); ("f16", 16); ("f17", 17); ("f18", 18); ("f19", 19); ("f20", 20); ("f21", 21); ("f22", 22); ("f23", 23); ("f24", 24); ("f25", 25); ("f26", 26); ("f27", 27); ("f28", 28); ("f29", 29); ("f30", 30); ("f31", 31); ("ft0", 0); ("ft1", 1); ("ft2", 2); ("ft3", 3); ("ft4", 4); ("ft5", 5); ("ft6", 6); ("ft7", 7); ("fs0", 8); ("fs1", 9); ("fa0", 10); ("fa1", 11); ("fa2", 12); ("fa3", 13); ("fa4", 14); ("fa5", 15); ("fa6", 16); ("fa7", 17); ("fs2", 18); ("fs3", 19); ("fs4", 20); ("fs5", 21); ("fs6", 22); ("fs7", 23); ("fs8", 24); ("fs9", 25); ("fs10", 26); ("fs11", 27); ("ft8", 28); ("ft9", 29); ("ft10", 30); ("ft11", 31)].

(** riscv_bin_setters.h:87-101, kDRegisterList. *)
Definition kDRegisterList : list (string * Z) :=
  [("d0", 0); ("d1", 1); ("d2", 2); ("d3", 3); ("d4", 4); ("d5", 5); ("d6", 6); ("d7", 7); ("d8", 8); ("d9", 9); ("d10", 10); ("d11", 11); ("d12", 12); ("d13", 13); ("d14", 14); ("d15", 15); ("d16", 16); ("d17", 17); ("d18", 18); ("d19", 19); ("d20", 20); ("d21", 21); ("d22", 22); ("d23", 23); ("d24", 24); ("d25", 25); ("d26", 26); ("d27", 27); ("d28", 28); ("d29", 29); ("d30", 30); ("d31", 31); ("dt0", 0); ("dt1", 1); ("dt2", 2); ("dt3", 3); ("dt4", 4); ("dt5", 5); ("dt6", 6); ("dt7", 7); ("ds0", 8); ("ds1", 9); ("da0", 10); ("da1", 11); ("da2", 12); ("da3", 13); ("da4", 14); ("da5", 15); ("da6", 16); ("da7", 17); ("ds2", 18); ("ds3", 19); ("ds4", 20); ("ds5", 21); ("ds6", 22); ("ds7", 23); ("ds8", 24); ("ds9", 25); ("ds10", 26); ("ds11", 27); ("dt8", 28); ("dt9", 29); ("dt10", 30); ("dt11", 31)].

(** riscv_bin_setters.h:103-109, kDCRegisterList. *)
Definition kDCRegisterList : list (string * Z) :=
  [("d8", 8); ("d9", 9); ("d10", 10); ("d11", 11); ("d12", 12); ("d13", 13); ("d14", 14); ("d15", 15); ("ds0", 8); ("ds1", 9); ("da0", 10); ("da1", 11); ("da2", 12); ("da3", 13); ("da4", 14); ("da5", 15)].

(** riscv_bin_setters.h:113-472, kCsrRegisterList. *)
Definition kCsrRegisterList : list (string * Z) :=
  [("fflags", 0x001); ("frm", 0x002); ("fcsr", 0x003); ("cycle", 0xc00); ("time", 0xc01); ("instret", 0xc02); ("hpmcounter3", 0xc03); ("hpmcounter4", 0xc04); ("hpmcounter5", 0xc05); ("hpmcounter6", 0xc06); ("hpmcounter7", 0xc07); ("hpmcounter8", 0xc08); ("hpmcounter9", 0xc09); ("hpmcounter10", 0xc0a); ("hpmcounter11", 0xc0b); ("hpmcounter12", 0xc0c); ("hpmcounter13", 0xc0d); ("hpmcounter14", 0xc0e); ("hpmcounter15", 0xc0f); ("hpmcounter16", 0xc10); ("hpmcounter17", 0xc11); ("hpmcounter18", 0xc12); ("hpmcounter19", 0xc13); ("hpmcounter20", 0xc14); ("hpmcounter21", 0xc15); ("hpmcounter22", 0xc16); ("hpmcounter23", 0xc17); ("hpmcounter24", 0xc18); ("hpmcounter25", 0xc19); ("hpmcounter26", 0xc1a); ("hpmcounter27", 0xc1b); ("hpmcounter28", 0xc1c); ("hpmcounter29", 0xc1d); ("hpmcounter30", 0xc1e); ("hpmcounter31", 0xc1f); ("cycleh", 0xc80); ("timeh", 0xc81); ("instreth", 0xc82); ("hpmcounter3h", 0xc83); ("hpmcounter4h", 0xc84); ("hpmcounter5h", 0xc85); ("hpmcounter6h", 0xc86); ("hpmcounter7h", 0xc87); ("hpmcounter8h", 0xc88); ("hpmcounter9h", 0xc89); ("hpmcounter10h", 0xc8a); ("hpmcounter11h", 0xc8b); ("hpmcounter12h", 0xc8c); ("hpmcounter13h", 0xc8d); ("hpmcounter14h", 0xc8e); ("hpmcounter15h", 0xc8f); ("hpmcounter16h", 0xc90); ("hpmcounter17h", 0xc91); ("hpmcounter18h", 0xc92); ("hpmcounter19h", 0xc93); ("hpmcounter20h", 0xc94); ("hpmcounter2h1", 0xc95); ("hpmcounter22h", 0xc96); ("hpmcounter23h", 0xc97); ("hpmcounter24h", 0xc98); ("hpmcounter25h", 0xc99); ("hpmcounter26h", 0xc9a); ("hpmcounter27h", 0xc9b); ("hpmcounter28h", 0xc9c); ("hpmcounter29h", 0xc9d); ("hpmcounter30h", 0xc9e); ("hpmcounter3h1", 0xc9f); ("sstatus", 0x100); ("sie", 0x104); ("stvec", 0x105); ("stcounteren", 0x106); ("senvcfg", 0x10a); ("scountinhibit", 0x120); ("sscratch", 0x140); ("sepc", 0x141); ("scause", 0x142); ("stval", 0x143); ("sip", 0x144); ("scountovf", 0xda0); ("satp", 0x180); ("scontext", 0x5a8); ("sstateen0", 0x10c); ("sstateen1", 0x10d); ("sstateen2", 0x10e); ("sstateen3", 0x10f); ("hstatus", 0x600); ("hedeleg", 0x602); ("hideleg", 0x603); ("hie", 0x604); ("hcounteren", 0x606); ("hgeie", 0x607); ("hedelegh", 0x612); ("htval", 0x643); ("hip", 0x644); ("hvip", 0x645); ("htinst", 0x64a); ("hgeip", 0xe12); ("henvcfg", 0x60a); ("henvcfgh", 0x61a); ("hgatp", 0x680); ("hcontext", 0x6a8); ("htimedelta", 0x605); ("htimedeltah", 0x615); ("hstateen0", 0x60c); ("hstateen1", 0x60d); ("hstateen2", 0x60e); ("hstateen3", 0x60f); ("hstateen0h", 0x61c); ("hstateen1h", 0x61d); ("hstateen2h", 0x61e); ("hstateen3h", 0x61f); ("vsstatus", 0x200); ("vsie", 0x204); ("vstvec", 0x205); ("vsscratch", 0x240); ("vsepc", 0x241); ("vscause", 0x242); ("vstval", 0x243); ("vsip", 0x244); ("vsatp", 0x280); ("mvendorid", 0xf11); ("marchid", 0xf12); ("mimpid", 0xf13); ("mhartid", 0xf14); ("mconfigptr", 0xf15); ("mstatus", 0x300); ("misa", 0x301); ("medeleg", 0x302); ("mideleg", 0x303); ("mie", 0x304); ("mcounteren", 0x306); ("mstatush", 0x310); ("medelegh", 0x312); ("mscratch", 0x340); ("mepc", 0x341); ("mcause", 0x342); ("mtval", 0x343); ("mip", 0x344); ("mtinst", 0x34a); ("mtval2", 0x34b); ("menvcfg", 0x30a); ("menvcfgh", 0x31a); ("mseccfg", 0x747); ("mseccfgh", 0x757); ("pmpcfg0", 0x3a0); ("pmpcfg1", 0x3a1); ("pmpcfg2", 0x3a2); ("pmpcfg3", 0x3a3); ("pmpcfg4", 0x3a4); ("pmpcfg5", 0x3a5); ("pmpcfg6", 0x3a6); ("pmpcfg7", 0x3a7); ("pmpcfg8", 0x3a8); ("pmpcfg9", 0x3a9); ("pmpcfg10", 0x3aa); ("pmpcfg11", 0x3ab); ("pmpcfg12", 0x3ac); ("pmpcfg13", 0x3ad); ("pmpcfg14", 0x3ae); ("pmpcfg15", 0x3af); ("pmpaddr0", 0x3b0); ("pmpaddr1", 0x3b1); ("pmpaddr2", 0x3b2); ("pmpaddr3", 0x3b3); ("pmpaddr4", 0x3b4); ("pmpaddr5", 0x3b5); ("pmpaddr6", 0x3b6); ("pmpaddr7", 0x3b7); ("pmpaddr8", 0x3b8); ("pmpaddr9", 0x3b9); ("pmpaddr10", 0x3ba); ("pmpaddr11", 0x3bb); ("pmpaddr12", 0x3bc); ("pmpaddr13", 0x3bd); ("pmpaddr14", 0x3be); ("pmpaddr15", 0x3bf); ("pmpaddr16", 0x3c0); ("pmpaddr17", 0x3c1); ("pmpaddr18", 0x3c2); ("pmpaddr19", 0x3c3); ("pmpaddr20", 0x3c4); ("pmpaddr21", 0x3c5); ("pmpaddr22", 0x3c6); ("pmpaddr23", 0x3c7); ("pmpaddr24", 0x3c8); ("pmpaddr25", 0x3c9); ("pmpaddr26", 0x3ca); ("pmpaddr27", 0x3cb); ("pmpaddr28", 0x3cc); ("pmpaddr29", 0x3cd); ("pmpaddr30", 0x3ce); ("pmpaddr31", 0x3cf); ("pmpaddr32", 0x3d0); ("pmpaddr33", 0x3d1); ("pmpaddr34", 0x3d2); ("pmpaddr35", 0x3d3); ("pmpaddr36", 0x3d4); ("pmpaddr37", 0x3d5); ("pmpaddr38", 0x3d6); ("pmpaddr39", 0x3d7); ("pmpaddr40", 0x3d8); ("pmpaddr41", 0x3d9); ("pmpaddr42", 0x3da); ("pmpaddr43", 0x3db); ("pmpaddr44", 0x3dc); ("pmpaddr45", 0x3dd); ("pmpaddr46", 0x3de); ("pmpaddr47", 0x3df); ("pmpaddr48", 0x3e0); ("pmpaddr49", 0x3e1); ("pmpaddr50", 0x3e2); ("pmpaddr51", 0x3e3); ("pmpaddr52", 0x3e4); ("pmpaddr53", 0x3e5); ("pmpaddr54", 0x3e6); ("pmpaddr55", 0x3e7); ("pmpaddr56", 0x3e8); ("pmpaddr57", 0x3e9); ("pmpaddr58", 0x3ea); ("pmpaddr59", 0x3eb); ("pmpaddr60", 0x3ec); ("pmpaddr61", 0x3ed); ("pmpaddr62", 0x3ee); ("pmpaddr63", 0x3ef); ("mstateen0", 0x30c); ("mstateen1", 0x30d); ("mstateen2", 0x30e); ("mstateen3", 0x30f); ("mstateen0h", 0x31c); ("mstateen1h", 0x31d); ("mstateen2h", 0x31e); ("mstateen3h", 0x31f); ("mnscratch", 0x740); ("mnepc", 0x741); ("mncause", 0x742); ("mnstatus", 0x743); ("mcycle", 0xb00); ("minstret", 0xb02); ("mhpmcounter3", 0xb03); ("mhpmcounter4", 0xb04); ("mhpmcounter5", 0xb05); ("mhpmcounter6", 0xb06); ("mhpmcounter7", 0xb07); ("mhpmcounter8", 0xb08); ("mhpmcounter9", 0xb09); ("mhpmcounter10", 0xb0a); ("mhpmcounter11", 0xb0b); ("mhpmcounter12", 0xb0c); ("mhpmcounter13", 0xb0d); ("mhpmcounter14", 0xb0e); ("mhpmcounter15", 0xb0f); ("mhpmcounter16", 0xb10); ("mhpmcounter17", 0xb11); ("mhpmcounter18", 0xb12); ("mhpmcounter19", 0xb13); ("mhpmcounter20", 0xb14); ("mhpmcounter21", 0xb15); ("mhpmcounter22", 0xb16); ("mhpmcounter23", 0xb17); ("mhpmcounter24", 0xb18); ("mhpmcounter25", 0xb19); ("mhpmcounter26", 0xb1a); ("mhpmcounter27", 0xb1b); ("mhpmcounter28", 0xb1c); ("mhpmcounter29", 0xb1d); ("mhpmcounter30", 0xb1e); ("mhpmcounter31", 0xb1f); ("mcycleh", 0xb80); ("minstreth", 0xb82); ("mhpmcounter3h", 0xb83); ("mhpmcounter4h", 0xb84); ("mhpmcounter5h", 0xb85); ("mhpmcounter6h", 0xb86); ("mhpmcounter7h", 0xb87); ("mhpmcounter8h", 0xb88); ("mhpmcounter9h", 0xb89); ("mhpmcounter10h", 0xb8a); ("mhpmcounter11h", 0xb8b); ("mhpmcounter12h", 0xb8c); ("mhpmcounter13h", 0xb8d); ("mhpmcounter14h", 0xb8e); ("mhpmcounter15h", 0xb8f); ("mhpmcounter16h", 0xb90); ("mhpmcounter17h", 0xb91); ("mhpmcounter18h", 0xb92); ("mhpmcounter19h", 0xb93); ("mhpmcounter20h", 0xb94); ("mhpmcounter21h", 0xb95); ("mhpmcounter22h", 0xb96); ("mhpmcounter23h", 0xb97); ("mhpmcounter24h", 0xb98); ("mhpmcounter25h", 0xb99); ("mhpmcounter26h", 0xb9a); ("mhpmcounter27h", 0xb9b); ("mhpmcounter28h", 0xb9c); ("mhpmcounter29h", 0xb9d); ("mhpmcounter30h", 0xb9e); ("mhpmcounter31h", 0xb9f); ("mcountinhibit", 0x320); ("mhpmevent3", 0x323); ("mhpmevent4", 0x324); ("mhpmevent5", 0x325); ("mhpmevent6", 0x326); ("mhpmevent7", 0x327); ("mhpmevent8", 0x328); ("mhpmevent9", 0x329); ("mhpmevent10", 0x32a); ("mhpmevent11", 0x32b); ("mhpmevent12", 0x32c); ("mhpmevent13", 0x32d); ("mhpmevent14", 0x32e); ("mhpmevent15", 0x32f); ("mhpmevent16", 0x330); ("mhpmevent17", 0x331); ("mhpmevent18", 0x332); ("mhpmevent19", 0x333); ("mhpmevent20", 0x334); ("mhpmevent21", 0x335); ("mhpmevent22", 0x336); ("mhpmevent23", 0x337); ("mhpmevent24", 0x338); ("mhpmevent25", 0x339); ("mhpmevent26", 0x33a); ("mhpmevent27", 0x33b); ("mhpmevent28", 0x33c); ("mhpmevent29", 0x33d); ("mhpmevent30", 0x33e); ("mhpmevent31", 0x33f); ("mhpmevent3h", 0x723); ("mhpmevent4h", 0x724); ("mhpmevent5h", 0x725); ("mhpmevent6h", 0x726); ("mhpmevent7h", 0x727); ("mhpmevent8h", 0x728); ("mhpmevent9h", 0x729); ("mhpmevent10h", 0x72a); ("mhpmevent11h", 0x72b); ("mhpmevent12h", 0x72c); ("mhpmevent13h", 0x72d); ("mhpmevent14h", 0x72e); ("mhpmevent15h", 0x72f); ("mhpmevent16h", 0x730); ("mhpmevent17h", 0x731); ("mhpmevent18h", 0x732); ("mhpmevent19h", 0x733); ("mhpmevent20h", 0x734); ("mhpmevent21h", 0x735); ("mhpmevent22h", 0x736); ("mhpmevent23h", 0x737); ("mhpmevent24h", 0x738); ("mhpmevent25h", 0x739); ("mhpmevent26h", 0x73a); ("mhpmevent27h", 0x73b); ("mhpmevent28h", 0x73c); ("mhpmevent29h", 0x73d); ("mhpmevent30h", 0x73e); ("mhpmevent31h", 0x73f)].


(** Model only: how the text of an operand becomes a number: by looking a name up
    (map.find, riscv_bin_setters.h:525-530), by SimpleTextToInt<int32_t or uint32_t>
    (signed or not), or as the distance of that number to the instruction address,
    truncated to 32 or 64 bits. *)
Inductive parser :=
  | SRegs (names : list (string * Z))
  | SInt (signed32 : bool)
  | SRel (signed32 : bool) (width : Z).

(** Model only: the value fits the type T of SimpleTextToInt<T>. *)
Definition fits32 (signed32 : bool) (z : Z) : bool :=
  (if signed32 then (- 2 ^ 31 <=? z) && (z <? 2 ^ 31) else (0 <=? z) && (z <? 2 ^ 32))%Z.

(** riscv_bin_setters.h:477-515, SimpleTextToInt: literals must be representable in T
    (absl::SimpleHexAtoi, absl::SimpleAtoi), the value of a symbol is cast to T.
    Simplification: the value of a symbol is an argument (the resolver is external),
    names that are no symbols and relocation functions %f(sym) are left out. *)
Definition text_to_int (signed32 : bool) (t : optext) : option Z :=
  match t with
  | THex n => if fits32 signed32 n then Some n else None
  | TDec z => if fits32 signed32 z then Some z else None
  | TSym s => Some (if signed32 then sgn 32 s else wrap 32 s)
  | TReg _ => None
  end.

(** riscv_bin_setters.h:525-531, map.find. *)
Fixpoint find_name (l : list (string * Z)) (n : string) : option Z :=
  match l with
  | [] => None
  | (m, v) :: r => if String.eqb m n then Some v else find_name r n
  end.

(** Model only: the number inserted for the text, as uint64_t (the type of the argument
    of Insert). *)
Definition parse (p : parser) (address : Z) (t : optext) : option Z :=
  match p with
  | SRegs l => match t with TReg n => find_name l n | _ => None end
  | SInt s => option_map (wrap 64) (text_to_int s t)
  | SRel s w => option_map (fun v => wrap w (wrap 64 v - address)) (text_to_int s t)
  end.

(** riscv_bin_setters.h:519-987, AddRiscvSourceOpBinSetters and
    AddRiscvDestOpBinSetters: for every operand how its text is turned into a number
    and the format and field the number is inserted in.  kCsr appears
    twice (625-635 and 943-953) with the same setter. *)
Definition setter (a : asmop) : parser * format * string :=
  match a with
  | AAq => (SRegs [("", 0); (".aq", 1)], f_AType, "aq")   (* 522-532 *)
  | ARl => (SRegs [("", 0); (".rl", 1)], f_AType, "rl")   (* 533-543 *)
  | BImm12 => (SRel false 32, f_BType, "b_imm")   (* 544-551 *)
  | C3drs2 => (SRegs kDCRegisterList, f_CS, "cs_rs2")   (* 552-562 *)
  | C3rs1 => (SRegs kCRegisterList, f_CL, "cl_rs1")   (* 563-573 *)
  | C3rs2 => (SRegs kCRegisterList, f_CS, "cs_rs2")   (* 574-584 *)
  | CSRUimm5 => (SInt false, f_IType, "i_uimm5")   (* 585-591 *)
  | Cdrs2 => (SRegs kDRegisterList, f_CR, "rs2")   (* 592-602 *)
  | Crs1 => (SRegs kRegisterList, f_CR, "rs1")   (* 603-613 *)
  | Crs2 => (SRegs kRegisterList, f_CR, "rs2")   (* 614-624 *)
  | Csr => (SRegs kCsrRegisterList, f_IType, "u_imm12")   (* 625-635 *)
  | Drs1 => (SRegs kDRegisterList, f_RType, "rs1")   (* 636-646 *)
  | Drs2 => (SRegs kDRegisterList, f_RType, "rs2")   (* 647-657 *)
  | Drs3 => (SRegs kDRegisterList, f_R4Type, "rs3")   (* 658-668 *)
  | Frs1 => (SRegs kFRegisterList, f_RType, "rs1")   (* 669-679 *)
  | Frs2 => (SRegs kFRegisterList, f_RType, "rs1")   (* 680-690 *)
  | Frs3 => (SRegs kFRegisterList, f_R4Type, "rs3")   (* 691-701 *)
  | ICbImm8 => (SRel true 32, f_CB, "bimm")   (* 702-709 *)
  | ICiImm6 => (SInt true, f_CI, "imm6")   (* 710-716 *)
  | ICiImm612 => (SInt true, f_CI, "imm18")   (* 717-723 *)
  | ICiImm6x16 => (SInt true, f_CI, "ci_imm10")   (* 724-730 *)
  | ICiUimm6 => (SInt true, f_CI, "uimm6")   (* 731-737 *)
  | ICiUimm6x4 => (SInt true, f_CI, "ci_imm_w")   (* 738-744 *)
  | ICiUimm6x8 => (SInt true, f_CI, "ci_imm_d")   (* 745-751 *)
  | ICiwUimm8x4 => (SInt true, f_CIW, "ciw_imm10")   (* 752-758 *)
  | ICjImm11 => (SRel true 64, f_CJ, "jimm")   (* 759-766 *)
  | IClUimm5x4 => (SInt false, f_CL, "cl_imm_w")   (* 767-773 *)
  | IClUimm5x8 => (SInt true, f_CL, "cl_imm_d")   (* 774-780 *)
  | ICssUimm6x4 => (SInt false, f_CS, "cs_imm_w")   (* 781-787 *)
  | ICssUimm6x8 => (SInt false, f_CS, "cs_imm_d")   (* 788-794 *)
  | IImm12 => (SInt true, f_IType, "imm12")   (* 795-801 *)
  | IUimm5 => (SInt false, f_RType, "r_uimm5")   (* 802-808 *)
  | IUimm6 => (SInt false, f_RSType, "r_uimm6")   (* 809-815 *)
  | JImm12 => (SInt true, f_IType, "imm12")   (* 816-822 *)
  | JImm20 => (SRel true 32, f_JType, "j_imm")   (* 823-830 *)
  | Pred => (SInt false, f_Fence, "pred")   (* 832-838 *)
  | SrcRd => (SRegs kRegisterList, f_RType, "rd")   (* 839-849 *)
  | Rm => (SRegs kRegisterList, f_R4Type, "rs3")   (* 850-860 *)
  | Rs1 => (SRegs kRegisterList, f_RType, "rs1")   (* 861-871 *)
  | Rs2 => (SRegs kRegisterList, f_RType, "rs2")   (* 872-882 *)
  | SImm12 => (SInt false, f_SType, "s_imm")   (* 883-889 *)
  | Succ => (SInt false, f_Fence, "succ")   (* 890-896 *)
  | UImm20 => (SInt false, f_UType, "u_imm")   (* 897-903 *)
  | C3drd => (SRegs kDCRegisterList, f_CL, "cl_rd")   (* 910-920 *)
  | C3rd => (SRegs kCRegisterList, f_CL, "cl_rd")   (* 921-931 *)
  | DestC3rs1 => (SRegs kCRegisterList, f_CS, "cs_rs1")   (* 932-942 *)
  | Drd => (SRegs kDRegisterList, f_RType, "rd")   (* 954-964 *)
  | Frd => (SRegs kFRegisterList, f_RType, "rd")   (* 965-975 *)
  | DestRd => (SRegs kRegisterList, f_RType, "rd")   (* 976-986 *)
  end.

(** riscv_bin_setters.h:519-987: the contribution of an operand to the instruction word
    (inserted in 0), or no value for an error status. *)
Definition set_operand (a : asmop) (address : Z) (t : optext) : option Z :=
  let '(p, fm, fld) := setter a in
  option_map (fun v => insert fm fld v 0) (parse p address t).

(** riscv_getters.h:54-379 (and riscv_getters_rv64.h:52-55 for kIUimm6), the operand
    getters of the decoder: the format and field each operand is read from, and
    whether the value is stored as int32_t ([true]) or as an unsigned number.
    Extractors of the base formats Inst32Format and Inst16Format are those of the
    derived format that declares the field. *)
Definition getter (a : asmop) : format * string * bool :=
  match a with
  | AAq => (f_AType, "aq", false)   (* 59-60 *)
  | ARl => (f_AType, "rl", false)   (* 65-66 *)
  | BImm12 => (f_BType, "b_imm", true)   (* 71-73 *)
  | C3drs2 => (f_CS, "cs_rs2", false)   (* 75-76 *)
  | C3rs1 => (f_CS, "cs_rs1", false)   (* 81-82 *)
  | C3rs2 => (f_CS, "cs_rs2", false)   (* 87-88 *)
  | CSRUimm5 => (f_IType, "i_uimm5", false)   (* 93-95 *)
  | Cdrs2 => (f_CR, "rs2", false)   (* 97-98 *)
  | Crs1 => (f_CR, "rs1", false)   (* 103-104 *)
  | Crs2 => (f_CR, "rs2", false)   (* 109-110 *)
  | Csr => (f_IType, "u_imm12", false)   (* 115-116 *)
  | Drs1 => (f_RType, "rs1", false)   (* 124-125 *)
  | Drs2 => (f_RType, "rs2", false)   (* 130-131 *)
  | Drs3 => (f_R4Type, "rs3", false)   (* 136-137 *)
  | Frs1 => (f_RType, "rs1", false)   (* 142-143 *)
  | Frs2 => (f_RType, "rs2", false)   (* 148-149 *)
  | Frs3 => (f_R4Type, "rs3", false)   (* 154-155 *)
  | ICbImm8 => (f_CB, "bimm", true)   (* 160-162 *)
  | ICiImm6 => (f_CI, "imm6", true)   (* 164-166 *)
  | ICiImm612 => (f_CI, "imm18", true)   (* 168-170 *)
  | ICiImm6x16 => (f_CI, "ci_imm10", true)   (* 172-174 *)
  | ICiUimm6 => (f_CI, "uimm6", false)   (* 176-178 *)
  | ICiUimm6x4 => (f_CI, "ci_imm_w", false)   (* 180-182 *)
  | ICiUimm6x8 => (f_CI, "ci_imm_d", false)   (* 184-186 *)
  | ICiwUimm8x4 => (f_CIW, "ciw_imm10", false)   (* 188-190 *)
  | ICjImm11 => (f_CJ, "jimm", true)   (* 192-194 *)
  | IClUimm5x4 => (f_CL, "cl_imm_w", false)   (* 196-198 *)
  | IClUimm5x8 => (f_CL, "cl_imm_d", false)   (* 200-202 *)
  | ICssUimm6x4 => (f_CSS, "css_imm_w", false)   (* 204-206 *)
  | ICssUimm6x8 => (f_CSS, "css_imm_d", false)   (* 208-210 *)
  | IImm12 => (f_IType, "imm12", true)   (* 212-214 *)
  | IUimm5 => (f_RType, "r_uimm5", false)   (* 216-218 *)
  | IUimm6 => (f_RSType, "r_uimm6", false)   (* 52-54 *)
  | JImm12 => (f_IType, "imm12", true)   (* 220-222 *)
  | JImm20 => (f_JType, "j_imm", true)   (* 224-226 *)
  | Pred => (f_Fence, "pred", false)   (* 228-230 *)
  | SrcRd => (f_RType, "rd", false)   (* 232-233 *)
  | Rm => (f_RType, "func3", false)   (* 239-240 *)
  | Rs1 => (f_RType, "rs1", false)   (* 262-263 *)
  | Rs2 => (f_RType, "rs2", false)   (* 269-270 *)
  | SImm12 => (f_SType, "s_imm", true)   (* 276-278 *)
  | Succ => (f_Fence, "succ", false)   (* 280-282 *)
  | UImm20 => (f_UType, "u_imm", true)   (* 284-286 *)
  | C3drd => (f_CL, "cl_rd", false)   (* 307-308 *)
  | C3rd => (f_CL, "cl_rd", false)   (* 313-314 *)
  | DestC3rs1 => (f_CL, "cl_rs1", false)   (* 319-320 *)
  | Drd => (f_RType, "rd", false)   (* 329-331 *)
  | Frd => (f_RType, "rd", false)   (* 336-338 *)
  | DestRd => (f_RType, "rd", false)   (* 348-350 *)
  end.

(** riscv_getters.h:54-379: the operand value the decoder reads from an instruction
    word: a register number or the value of the ImmediateOperand. *)
Definition get_operand (a : asmop) (w : Z) : Z :=
  let '(fm, fld, as_int32) := getter a in
  let v := extract fm fld w in
  if as_int32 then sgn 32 v else v.

(** Model only: the double precision load/store offsets of Zcd. *)
Inductive zcdop := ZCiUimm6x8 | ZClUimm5x8 | ZCssUimm6x8.
(** riscv_zc_getters.h:253-264, AddRiscVZcdSourceGetters. *)
Definition zcd_getter (z : zcdop) : format * string :=
  match z with
  | ZCiUimm6x8 => (f_CI, "ci_imm_w")     (* 253-256 *)
  | ZClUimm5x8 => (f_CL, "cl_imm_w")     (* 257-260 *)
  | ZCssUimm6x8 => (f_CSS, "css_imm_w")  (* 261-264 *)
  end.
(** riscv_zc_getters.h:253-264. *)
Definition get_zcd (z : zcdop) (w : Z) : Z := let '(fm, fld) := zcd_getter z in extract fm fld w.
