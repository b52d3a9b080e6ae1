(** Specification of instruction operand encodings, written from the RISC-V
    unprivileged manual (figures "RISC-V base instruction formats", "Types of
    immediate", "Compressed instruction formats") and independent of the model.

    An operand [o] of a format is described the way the manual draws it: which
    instruction bits carry which bits of the operand, and which operand bits are
    fixed. *)
From Coq Require Import ZArith List String Bool.
From Verif Require Import Bits.
Import ListNotations.
Local Open Scope Z_scope.
Local Open Scope string_scope.

(** [seg hi lo at]: instruction bits hi..lo hold operand bits starting at [at]. *)
Record seg := mk_seg { sg_hi : Z; sg_lo : Z; sg_at : Z }.

Record operand := mk_operand {
  o_name   : string;
  o_signed : bool;             (* sign extended? *)
  o_width  : Z;                (* operand width in bits *)
  o_fixed  : list (Z * bool);  (* operand bits with a fixed value, not encoded *)
  o_segs   : list seg }.

(** Zeros in the low [n] bits (scaled immediates). *)
Definition low_zeros (n : nat) : list (Z * bool) :=
  map (fun i => (Z.of_nat i, false)) (seq 0 n).
(** The three bit register fields of compressed formats name x8..x15. *)
Definition creg_fixed : list (Z * bool) := [(4, false); (3, true)].

(** The operand values a format can express. *)
Definition legal (o : operand) (v : Z) : Prop :=
  (if o_signed o then - 2 ^ (o_width o - 1) <= v < 2 ^ (o_width o - 1)
   else 0 <= v < 2 ^ o_width o) /\
  (forall i b, In (i, b) (o_fixed o) -> Z.testbit v i = b).

(** Instruction word [w] encodes the operand value [v]. *)
Definition encodes (o : operand) (w v : Z) : Prop :=
  legal o v /\
  (forall s, In s (o_segs o) -> forall j, 0 <= j <= sg_hi s - sg_lo s ->
     Z.testbit v (sg_at s + j) = Z.testbit w (sg_lo s + j)).

(** Instruction bit [k] belongs to the operand. *)
Definition carries (o : operand) (k : Z) : Prop :=
  exists s, In s (o_segs o) /\ sg_lo s <= k <= sg_hi s.

Definition un name width fixed segs := mk_operand name false width fixed segs.
Definition si name width fixed segs := mk_operand name true width fixed segs.

(** ** 32-bit formats *)
Definition o_imm_i := si "I immediate" 12 [] [mk_seg 31 20 0].
Definition o_imm_s := si "S immediate" 12 [] [mk_seg 31 25 5; mk_seg 11 7 0].
Definition o_imm_b := si "B immediate" 13 (low_zeros 1)
  [mk_seg 31 31 12; mk_seg 30 25 5; mk_seg 11 8 1; mk_seg 7 7 11].
Definition o_imm_u := un "U immediate" 32 (low_zeros 12) [mk_seg 31 12 12].
Definition o_imm_j := si "J immediate" 21 (low_zeros 1)
  [mk_seg 31 31 20; mk_seg 30 21 1; mk_seg 20 20 11; mk_seg 19 12 12].
Definition o_shamt5 := un "shamt (5 bits)" 5 [] [mk_seg 24 20 0].
Definition o_shamt6 := un "shamt (6 bits)" 6 [] [mk_seg 25 20 0].
Definition o_csr := un "csr number" 12 [] [mk_seg 31 20 0].
Definition o_zimm := un "CSR immediate" 5 [] [mk_seg 19 15 0].
Definition o_pred := un "fence predecessor set" 4 [] [mk_seg 27 24 0].
Definition o_succ := un "fence successor set" 4 [] [mk_seg 23 20 0].
Definition o_aq := un "aq" 1 [] [mk_seg 26 26 0].
Definition o_rl := un "rl" 1 [] [mk_seg 25 25 0].
Definition o_rm := un "rounding mode" 3 [] [mk_seg 14 12 0].
Definition o_rd := un "rd" 5 [] [mk_seg 11 7 0].
Definition o_rs1 := un "rs1" 5 [] [mk_seg 19 15 0].
Definition o_rs2 := un "rs2" 5 [] [mk_seg 24 20 0].
Definition o_rs3 := un "rs3" 5 [] [mk_seg 31 27 0].
Definition o_prefetch := si "prefetch offset" 12 (low_zeros 5) [mk_seg 31 25 5].
Definition o_mop_r := un "mop.r number" 5 []
  [mk_seg 30 30 4; mk_seg 27 26 2; mk_seg 21 20 0].
Definition o_mop_rr := un "mop.rr number" 3 [] [mk_seg 30 30 2; mk_seg 27 26 0].
Definition o_vsimm5 := si "vector simm5" 5 [] [mk_seg 19 15 0].
Definition o_vuimm5 := un "vector uimm5" 5 [] [mk_seg 19 15 0].
Definition o_vuimm6 := un "vror immediate" 6 [] [mk_seg 26 26 5; mk_seg 19 15 0].
Definition o_vd := un "vd" 5 [] [mk_seg 11 7 0].
Definition o_vs1 := un "vs1" 5 [] [mk_seg 19 15 0].
Definition o_vs2 := un "vs2" 5 [] [mk_seg 24 20 0].
Definition o_vm := un "vm" 1 [] [mk_seg 25 25 0].
Definition o_zimm11 := un "vsetvli zimm" 11 [] [mk_seg 30 20 0].
Definition o_zimm10 := un "vsetivli zimm" 10 [] [mk_seg 29 20 0].

(** ** 16-bit formats *)
Definition o_ci_imm := si "CI immediate" 6 [] [mk_seg 12 12 5; mk_seg 6 2 0].
Definition o_ci_shamt := un "CI shift amount" 6 [] [mk_seg 12 12 5; mk_seg 6 2 0].
Definition o_cb_shamt := un "CB shift amount" 6 [] [mk_seg 12 12 5; mk_seg 6 2 0].
Definition o_c_lui := si "c.lui immediate" 18 (low_zeros 12)
  [mk_seg 12 12 17; mk_seg 6 2 12].
Definition o_c_addi16sp := si "c.addi16sp immediate" 10 (low_zeros 4)
  [mk_seg 12 12 9; mk_seg 6 6 4; mk_seg 5 5 6; mk_seg 4 3 7; mk_seg 2 2 5].
Definition o_c_lwsp := un "c.lwsp offset" 8 (low_zeros 2)
  [mk_seg 12 12 5; mk_seg 6 4 2; mk_seg 3 2 6].
Definition o_c_ldsp := un "c.ldsp offset" 9 (low_zeros 3)
  [mk_seg 12 12 5; mk_seg 6 5 3; mk_seg 4 2 6].
Definition o_c_swsp := un "c.swsp offset" 8 (low_zeros 2)
  [mk_seg 12 9 2; mk_seg 8 7 6].
Definition o_c_sdsp := un "c.sdsp offset" 9 (low_zeros 3)
  [mk_seg 12 10 3; mk_seg 9 7 6].
Definition o_c_addi4spn := un "c.addi4spn immediate" 10 (low_zeros 2)
  [mk_seg 12 11 4; mk_seg 10 7 6; mk_seg 6 6 2; mk_seg 5 5 3].
Definition o_c_lw := un "c.lw/c.sw offset" 7 (low_zeros 2)
  [mk_seg 12 10 3; mk_seg 6 6 2; mk_seg 5 5 6].
Definition o_c_ld := un "c.ld/c.sd offset" 8 (low_zeros 3)
  [mk_seg 12 10 3; mk_seg 6 5 6].
Definition o_c_j := si "c.j offset" 12 (low_zeros 1)
  [mk_seg 12 12 11; mk_seg 11 11 4; mk_seg 10 9 8; mk_seg 8 8 10; mk_seg 7 7 6;
   mk_seg 6 6 7; mk_seg 5 3 1; mk_seg 2 2 5].
Definition o_c_b := si "c.beqz offset" 9 (low_zeros 1)
  [mk_seg 12 12 8; mk_seg 11 10 3; mk_seg 6 5 6; mk_seg 4 3 1; mk_seg 2 2 5].
Definition o_c_lb := un "c.lbu/c.sb offset" 2 [] [mk_seg 6 6 0; mk_seg 5 5 1].
Definition o_c_lh := un "c.lhu/c.lh/c.sh offset" 2 (low_zeros 1) [mk_seg 5 5 1].
Definition o_c_rs1 := un "CR rd/rs1" 5 [] [mk_seg 11 7 0].
Definition o_c_rs2 := un "CR rs2" 5 [] [mk_seg 6 2 0].
Definition o_c_rs1p := un "rs1'" 5 creg_fixed [mk_seg 9 7 0].
Definition o_c_rs2p := un "rd'/rs2'" 5 creg_fixed [mk_seg 4 2 0].
Definition o_cm_rlist := un "cm.push register list" 4 [] [mk_seg 7 4 0].
Definition o_cm_spimm := un "cm.push stack adjustment" 2 [] [mk_seg 3 2 0].
Definition o_cm_index := un "cm.jt index" 8 [] [mk_seg 9 2 0].

(** * Assembler operands *)

(** An operand as it appears in assembly text: a register name, a hexadecimal or
    decimal literal, or a symbol (the value of the symbol is what the resolver,
    external to this code base, returns: a 64-bit unsigned number). *)
Inductive optext :=
  | TReg (name : string)
  | THex (n : Z)     (* 0x...; n >= 0 *)
  | TDec (z : Z)     (* optional minus sign, decimal digits *)
  | TSym (value : Z).

(** Register names: ABI names in order of register number. *)
Definition abi_x : list string :=
  ["zero"; "ra"; "sp"; "gp"; "tp"; "t0"; "t1"; "t2"; "s0"; "s1"; "a0"; "a1"; "a2"; "a3";
   "a4"; "a5"; "a6"; "a7"; "s2"; "s3"; "s4"; "s5"; "s6"; "s7"; "s8"; "s9"; "s10"; "s11";
   "t3"; "t4"; "t5"; "t6"].
Definition abi_f : list string := 
  ["ft0"; "ft1"; "ft2"; "ft3"; "ft4"; "ft5"; "ft6"; "ft7"; "fs0"; "fs1"; "fa0"; "fa1";
   "fa2"; "fa3"; "fa4"; "fa5"; "fa6"; "fa7"; "fs2"; "fs3"; "fs4"; "fs5"; "fs6"; "fs7";
   "fs8"; "fs9"; "fs10"; "fs11"; "ft8"; "ft9"; "ft10"; "ft11"].
(** The assembler's own names for double precision registers: "d" for "f". *)
Definition abi_d : list string := 
  ["dt0"; "dt1"; "dt2"; "dt3"; "dt4"; "dt5"; "dt6"; "dt7"; "ds0"; "ds1"; "da0"; "da1";
   "da2"; "da3"; "da4"; "da5"; "da6"; "da7"; "ds2"; "ds3"; "ds4"; "ds5"; "ds6"; "ds7";
   "ds8"; "ds9"; "ds10"; "ds11"; "dt8"; "dt9"; "dt10"; "dt11"].
Definition digits : list string :=
  ["0"; "1"; "2"; "3"; "4"; "5"; "6"; "7"; "8"; "9"; "10"; "11"; "12"; "13"; "14"; "15";
   "16"; "17"; "18"; "19"; "20"; "21"; "22"; "23"; "24"; "25"; "26"; "27"; "28"; "29";
   "30"; "31"].

Definition numerals : list string := (digits ++
  ["32"; "33"; "34"; "35"; "36"; "37"; "38"; "39"; "40"; "41"; "42"; "43"; "44"; "45"; "46"; "47"; "48"; "49"; "50"; "51"; "52"; "53"; "54"; "55"; "56"; "57"; "58"; "59"; "60"; "61"; "62"; "63"])%list.

(** [reg_named cls name n]: [name] denotes register [n] of class [cls]. *)
Inductive regclass := RX | RF | RD.
Definition reg_named (cls : regclass) (name : string) (n : Z) : Prop :=
  0 <= n < 32 /\
  (let '(abi, pre) := match cls with RX => (abi_x, "x") | RF => (abi_f, "f")
                                   | RD => (abi_d, "d") end in
   name = nth (Z.to_nat n) abi "" \/ name = pre ++ nth (Z.to_nat n) digits "").

(** The control and status registers of the privileged architecture manual, tables
    "Currently allocated RISC-V ... CSR addresses". *)
Definition csr_family (pre post : string) (base : Z) (first last : nat) : list (string * Z) :=
  map (fun n => (pre ++ nth n numerals "" ++ post, base + Z.of_nat n)%Z)
      (seq first (last - first + 1)).
Definition csr_manual : list (string * Z) :=
  ([("fflags", 0x001); ("frm", 0x002); ("fcsr", 0x003);
    ("vstart", 0x008); ("vxsat", 0x009); ("vxrm", 0x00a); ("vcsr", 0x00f); ("jvt", 0x017);
    ("vl", 0xc20); ("vtype", 0xc21); ("vlenb", 0xc22);
    ("cycle", 0xc00); ("time", 0xc01); ("instret", 0xc02);
    ("cycleh", 0xc80); ("timeh", 0xc81); ("instreth", 0xc82);
    ("sstatus", 0x100); ("sie", 0x104); ("stvec", 0x105); ("scounteren", 0x106);
    ("senvcfg", 0x10a); ("scountinhibit", 0x120); ("sscratch", 0x140); ("sepc", 0x141);
    ("scause", 0x142); ("stval", 0x143); ("sip", 0x144); ("scountovf", 0xda0);
    ("satp", 0x180); ("scontext", 0x5a8);
    ("hstatus", 0x600); ("hedeleg", 0x602); ("hideleg", 0x603); ("hie", 0x604);
    ("hcounteren", 0x606); ("hgeie", 0x607); ("hedelegh", 0x612); ("htval", 0x643);
    ("hip", 0x644); ("hvip", 0x645); ("htinst", 0x64a); ("hgeip", 0xe12);
    ("henvcfg", 0x60a); ("henvcfgh", 0x61a); ("hgatp", 0x680); ("hcontext", 0x6a8);
    ("htimedelta", 0x605); ("htimedeltah", 0x615);
    ("vsstatus", 0x200); ("vsie", 0x204); ("vstvec", 0x205); ("vsscratch", 0x240);
    ("vsepc", 0x241); ("vscause", 0x242); ("vstval", 0x243); ("vsip", 0x244);
    ("vsatp", 0x280);
    ("mvendorid", 0xf11); ("marchid", 0xf12); ("mimpid", 0xf13); ("mhartid", 0xf14);
    ("mconfigptr", 0xf15);
    ("mstatus", 0x300); ("misa", 0x301); ("medeleg", 0x302); ("mideleg", 0x303);
    ("mie", 0x304); ("mtvec", 0x305); ("mcounteren", 0x306); ("mstatush", 0x310);
    ("medelegh", 0x312); ("mscratch", 0x340); ("mepc", 0x341); ("mcause", 0x342);
    ("mtval", 0x343); ("mip", 0x344); ("mtinst", 0x34a); ("mtval2", 0x34b);
    ("menvcfg", 0x30a); ("menvcfgh", 0x31a); ("mseccfg", 0x747); ("mseccfgh", 0x757);
    ("mnscratch", 0x740); ("mnepc", 0x741); ("mncause", 0x742); ("mnstatus", 0x744);
    ("mcycle", 0xb00); ("minstret", 0xb02); ("mcycleh", 0xb80); ("minstreth", 0xb82);
    ("mcountinhibit", 0x320)] ++
   csr_family "hpmcounter" "" 0xc00 3 31 ++ csr_family "hpmcounter" "h" 0xc80 3 31 ++
   csr_family "mhpmcounter" "" 0xb00 3 31 ++ csr_family "mhpmcounter" "h" 0xb80 3 31 ++
   csr_family "mhpmevent" "" 0x320 3 31 ++ csr_family "mhpmevent" "h" 0x720 3 31 ++
   csr_family "pmpcfg" "" 0x3a0 0 15 ++ csr_family "pmpaddr" "" 0x3b0 0 63 ++
   csr_family "sstateen" "" 0x10c 0 3 ++ csr_family "hstateen" "" 0x60c 0 3 ++
   csr_family "hstateen" "h" 0x61c 0 3 ++ csr_family "mstateen" "" 0x30c 0 3 ++
   csr_family "mstateen" "h" 0x31c 0 3)%list.

(** How the text of an operand is to be understood. *)
Inductive opkind := KReg (cls : regclass) | KImm | KPcRel | KCsr | KOrder (suffix : string).

(** [means k address t v]: at instruction address [address] the text [t] of an
    operand of kind [k] denotes the operand value [v].  Branch and jump operands
    denote a target address; the encoded operand is the distance to it. *)
Definition means (k : opkind) (address : Z) (t : optext) (v : Z) : Prop :=
  match k, t with
  | KReg cls, TReg n => reg_named cls n v
  | KImm, THex n => v = n
  | KImm, TDec z => v = z
  | KImm, TSym s => v = s
  | KPcRel, THex n => v = n - address
  | KPcRel, TDec z => v = z - address
  | KPcRel, TSym s => v = s - address
  | KCsr, TReg n => In (n, v) csr_manual
  | KOrder suffix, TReg n => (n = "" /\ v = 0) \/ (n = suffix /\ v = 1)
  | _, _ => False
  end.

(** The operands the assembler knows (names as in the instruction descriptions). *)
Inductive asmop :=
  | AAq | ARl | BImm12 | C3drs2 | C3rs1 | C3rs2 | CSRUimm5 | Csr | Cdrs2 | Crs1 | Crs2
  | Drs1 | Drs2 | Drs3 | Frs1 | Frs2 | Frs3
  | ICbImm8 | ICiImm6 | ICiImm612 | ICiImm6x16 | ICiUimm6 | ICiUimm6x4 | ICiUimm6x8
  | ICiwUimm8x4 | ICjImm11 | IClUimm5x4 | IClUimm5x8 | ICssUimm6x4 | ICssUimm6x8
  | IImm12 | IUimm5 | IUimm6 | JImm12 | JImm20 | Pred | SrcRd | Rm | Rs1 | Rs2 | SImm12
  | Succ | UImm20
  (* destinations *)
  | C3drd | C3rd | DestC3rs1 | Drd | Frd | DestRd.

(** What each operand is, according to the instruction set manual. *)
Definition asm_spec (a : asmop) : opkind * operand :=
  match a with
  | AAq => (KOrder ".aq", o_aq) | ARl => (KOrder ".rl", o_rl)
  | BImm12 => (KPcRel, o_imm_b) | C3drs2 => (KReg RD, o_c_rs2p)
  | C3rs1 => (KReg RX, o_c_rs1p) | C3rs2 => (KReg RX, o_c_rs2p)
  | CSRUimm5 => (KImm, o_zimm) | Csr => (KCsr, o_csr) | Cdrs2 => (KReg RD, o_c_rs2)
  | Crs1 => (KReg RX, o_c_rs1) | Crs2 => (KReg RX, o_c_rs2)
  | Drs1 => (KReg RD, o_rs1) | Drs2 => (KReg RD, o_rs2) | Drs3 => (KReg RD, o_rs3)
  | Frs1 => (KReg RF, o_rs1) | Frs2 => (KReg RF, o_rs2) | Frs3 => (KReg RF, o_rs3)
  | ICbImm8 => (KPcRel, o_c_b) | ICiImm6 => (KImm, o_ci_imm) | ICiImm612 => (KImm, o_c_lui)
  | ICiImm6x16 => (KImm, o_c_addi16sp) | ICiUimm6 => (KImm, o_ci_shamt)
  | ICiUimm6x4 => (KImm, o_c_lwsp) | ICiUimm6x8 => (KImm, o_c_ldsp)
  | ICiwUimm8x4 => (KImm, o_c_addi4spn) | ICjImm11 => (KPcRel, o_c_j)
  | IClUimm5x4 => (KImm, o_c_lw) | IClUimm5x8 => (KImm, o_c_ld)
  | ICssUimm6x4 => (KImm, o_c_swsp) | ICssUimm6x8 => (KImm, o_c_sdsp)
  | IImm12 => (KImm, o_imm_i) | IUimm5 => (KImm, o_shamt5) | IUimm6 => (KImm, o_shamt6)
  | JImm12 => (KImm, o_imm_i) | JImm20 => (KPcRel, o_imm_j)
  | Pred => (KImm, o_pred) | SrcRd => (KReg RX, o_rd) | Rm => (KImm, o_rm)
  | Rs1 => (KReg RX, o_rs1) | Rs2 => (KReg RX, o_rs2) | SImm12 => (KImm, o_imm_s)
  | Succ => (KImm, o_succ) | UImm20 => (KImm, o_imm_u)
  | C3drd => (KReg RD, o_c_rs2p) | C3rd => (KReg RX, o_c_rs2p)
  | DestC3rs1 => (KReg RX, o_c_rs1p) | Drd => (KReg RD, o_rd) | Frd => (KReg RF, o_rd)
  | DestRd => (KReg RX, o_rd)
  end.
