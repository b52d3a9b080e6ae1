(** Proof device for C73: a boolean comparison of a row of the simulators' tables with an instruction of the
    specification; StepProofs.v proves that a row that passes executes the instruction. *)
From Coq Require Import ZArith List String Bool.
From Verif Require Import Bits FmtSpec FmtModel FmtProofs DecSpec DecManual DecModel IntSpec IntModel Memory
  AccessSpec AccessModel StepSpec StepModel.
Import ListNotations.
Local Open Scope string_scope.
Local Open Scope Z_scope.

(** The operand lies in the instruction: for a 16-bit instruction, in its low half. *)
Definition fits (short : bool) (o : operand) : bool :=
  negb short || forallb (fun s => (0 <=? sg_lo s) && (sg_hi s <? 16)) (o_segs o).
Definition same_operand (o o' : operand) : bool :=
  Bool.eqb (o_signed o) (o_signed o') && (o_width o =? o_width o') &&
  forallb (fun p => let '((i, b), (j, c)) := p in (i =? j) && Bool.eqb b c) (combine (o_fixed o) (o_fixed o')) &&
  (Z.of_nat (List.length (o_fixed o)) =? Z.of_nat (List.length (o_fixed o'))) &&
  forallb (fun p => (sg_hi (fst p) =? sg_hi (snd p)) && (sg_lo (fst p) =? sg_lo (snd p)) && (sg_at (fst p) =? sg_at (snd p)))
    (combine (o_segs o) (o_segs o')) &&
  (Z.of_nat (List.length (o_segs o)) =? Z.of_nat (List.length (o_segs o'))).

(** The int32_t or uint32_t the immediate goes through keeps its value. *)
Definition imm32_ok (o : operand) (int32 : bool) : bool :=
  (1 <=? o_width o) &&
  if o_signed o then int32 && (o_width o <=? 32)
  else if int32 then o_width o <=? 31 else o_width o <=? 32.
Definition src_ok (short : bool) (s : StepModel.src) (p : opd) : bool :=
  match s, p with
  | SReg fm fld _, Reg o => agrees o fm fld && fits short o
  | SX n, RegN m => n =? m
  | SLit n, RegN m => (n =? 0) && (m =? 0)
  | SLit n, ImmN m => (n =? 0) && (m =? 0)
  | SImm fm fld i32, Imm o => agrees o fm fld && fits short o && imm32_ok o i32
  | _, _ => false
  end.
Definition fsrc_ok (short : bool) (s : StepModel.src) (o : operand) : bool :=
  match s with SFreg fm fld => agrees o fm fld && fits short o | _ => false end.
(** A constraint of the row makes the operand 0. *)
Definition zero_row (r : row) (o : operand) : bool :=
  existsb (fun c => match c with CVal f REq v => (v =? 0) && agrees o (r_fmt r) f | _ => false end) (r_cons r).
(** Bit 3 set: one of x8..x15. *)
Definition nonzero (o : operand) : bool := existsb (fun p => (fst p =? 3) && snd p) (o_fixed o).
Definition dst_ok (short : bool) (r : row) (d : dst) (p : dest) : bool :=
  match d, p with
  | DReg fm fld z, Rd o => agrees o fm fld && fits short o && (z || nonzero o)
  | DX n, RdN m => (n =? m) && negb (n =? 0)
  | DX0, RdN m => m =? 0
  | DX0, Rd o => zero_row r o
  | _, _ => false
  end.

Definition is_src (S : simulator) (short : bool) (ir : irow) (k : nat) (p : opd) : bool :=
  match get_src S (i_src ir) k with Some s => src_ok short s p | None => false end.
Definition is_lit (S : simulator) (ir : irow) (k : nat) (n : Z) : bool :=
  match get_src S (i_src ir) k with Some (SLit m) => m =? n | _ => false end.
Definition is_fsrc (S : simulator) (short : bool) (ir : irow) (k : nat) (o : operand) : bool :=
  match get_src S (i_src ir) k with Some s => fsrc_ok short s o | None => false end.
Definition is_dst (S : simulator) (short : bool) (r : row) (ir : irow) (k : nat) (p : dest) : bool :=
  match get_dst S (i_dst ir) k with Some d => dst_ok short r d p | None => false end.
Definition is_fdst (S : simulator) (short : bool) (ir : irow) (k : nat) (o : operand) : bool :=
  match get_dst S (i_dst ir) k with Some (DFreg fm fld) => agrees o fm fld && fits short o | _ => false end.
Definition is_pc (S : simulator) (ir : irow) (k : nat) : bool :=
  match get_dst S (i_dst ir) k with Some DPc => true | _ => false end.

Definition iop_eqb (x y : iop) : bool :=
  match x, y with
  | Add, Add | Sub, Sub | Slt, Slt | Sltu, Sltu | And, And | Or, Or | Xor, Xor | Sll, Sll | Srl, Srl | Sra, Sra
  | Lui, Lui | Auipc, Auipc | Addw, Addw | Subw, Subw | Sllw, Sllw | Srlw, Srlw | Sraw, Sraw
  | Mul, Mul | Mulh, Mulh | Mulhu, Mulhu | Mulhsu, Mulhsu | Div, Div | Divu, Divu | Rem, Rem | Remu, Remu
  | Mulw, Mulw | Divw, Divw | Divuw, Divuw | Remw, Remw | Remuw, Remuw | AddUw, AddUw | SlliUw, SlliUw
  | Andn, Andn | Orn, Orn | Xnor, Xnor | Not, Not | Clz, Clz | Clzw, Clzw | Ctz, Ctz | Ctzw, Ctzw | Cpop, Cpop
  | Cpopw, Cpopw | Max, Max | Maxu, Maxu | Min, Min | Minu, Minu | SextB, SextB | SextH, SextH | ZextB, ZextB
  | ZextH, ZextH | ZextW, ZextW | Rol, Rol | Rolw, Rolw | Ror, Ror | Rorw, Rorw | Orcb, Orcb | Rev8, Rev8
  | Clmul, Clmul | Clmulh, Clmulh | Clmulr, Clmulr | Bclr, Bclr | Bext, Bext | Binv, Binv | Bset, Bset
  | CzeroEqz, CzeroEqz | CzeroNez, CzeroNez => true
  | ShAdd n, ShAdd m | ShAddUw n, ShAddUw m => n =? m
  | _, _ => false
  end.
Definition branch_eqb (x y : branch) : bool :=
  match x, y with Beq, Beq | Bne, Bne | Blt, Blt | Bltu, Bltu | Bge, Bge | Bgeu, Bgeu => true | _, _ => false end.
Definition load_eqb (x y : load_kind) : bool :=
  match x, y with Lb, Lb | Lh, Lh | Lw, Lw | Ld, Ld | Lbu, Lbu | Lhu, Lhu | Lwu, Lwu => true | _, _ => false end.
Definition store_eqb (x y : store_kind) : bool :=
  match x, y with Sb, Sb | Sh, Sh | Sw, Sw | Sd, Sd => true | _, _ => false end.
(** The operation exists at this width and its arguments are in its domain. *)
Definition op_ok (w : Z) (op : iop) (b : opd) : bool :=
  ((w =? 64) || negb (rv64_only op)) &&
  match op with
  | ShAdd n | ShAddUw n => (1 <=? n) && (n <=? 3)
  | SlliUw => match b with Imm o => negb (o_signed o) && (o_width o <=? 6) && (0 <=? o_width o) | _ => false end
  | Cpopw | ZextW => false
  | _ => true
  end.
(** Some format has a field laid out like the operand: every word encodes a value of it. *)
Definition fields_used : list (format * string) :=
  [(f_RType, "rd"); (f_RType, "rs1"); (f_RType, "rs2"); (f_RType, "r_uimm5"); (f_RSType, "r_uimm6");
   (f_IType, "imm12"); (f_SType, "s_imm"); (f_BType, "b_imm"); (f_UType, "u_imm"); (f_JType, "j_imm");
   (f_CR, "rs1"); (f_CR, "rs2"); (f_CS, "cs_rs1"); (f_CS, "cs_rs2"); (f_CL, "cl_rd");
   (f_CI, "imm6"); (f_CI, "uimm6"); (f_CI, "imm18")].
Definition encodable (o : operand) : bool := existsb (fun p => agrees o (fst p) (snd p)) fields_used.
Definition opd_encodable (p : opd) : bool :=
  match p with Reg o | Imm o => encodable o | _ => true end.
(** A row without effect: the destination is x0, or x + 0 goes to x. *)
Definition zero_dest (r : row) (d : dest) : bool :=
  match d with Rd o => zero_row r o | RdN n => n =? 0 end.
Definition nop_ok (w : Z) (r : row) (i : instr) : bool :=
  match i with
  | INop => true
  | IOp op d a b => op_ok w op b && opd_encodable a && opd_encodable b && (negb (iop_eqb op Clmulr)) &&
      (zero_dest r d ||
       (iop_eqb op Add && match d, a, b with
                          | Rd o, Reg o', Imm z => encodable o && same_operand o o' && zero_row r z
                          | _, _, _ => false end))
  | IUpper op d o => (iop_eqb op Lui || iop_eqb op Auipc) && encodable o && (o_width o <=? 32) && zero_dest r d
  | _ => false
  end.
Definition even_imm (p : opd) : bool :=
  match p with Imm o => existsb (fun p => (fst p =? 0) && negb (snd p)) (o_fixed o) | _ => false end.

Definition reg_opd (p : opd) : bool := match p with Reg _ | RegN _ => true | _ => false end.
(** An address computed in 64 bits from an unsigned offset. *)
Definition wide_ok (aw : Z) (off : opd) : bool :=
  (aw =? 64) && match off with Imm o => negb (o_signed o) && (o_width o <=? 32) | _ => false end.

(** Row [r] of the decoder, row [ir] of the .isa file and instruction [i] agree. *)
Definition row_ok (S : simulator) (short : bool) (r : row) (ir : irow) (i : instr) : bool :=
  let w := s_xlen S in
  let sr := is_src S short ir in
  (i_size ir =? (if short then 2 else 4)) &&
  match assoc semfuncs (i_sem ir), i with
  | Some (SemBin aw op), IOp op' d a b =>
      (aw =? w) && iop_eqb op op' && op_ok w op b && is_dst S short r ir 0 d && sr 0%nat a &&
      (sr 1%nat b ||
       (iop_eqb op Rorw && match get_src S (i_src ir) 1, b with
                           | Some (SImm fm fld false), Imm o => same_operand o o_shamt5 && agrees o_shamt6 fm fld && negb short
                           | _, _ => false end))
  | Some (SemUn aw op), IOp op' d a b =>
      (aw =? w) && iop_eqb op op' && op_ok w op b && is_dst S short r ir 0 d && sr 0%nat a &&
      (match b with ImmN n => n =? 0 | _ => false end)
  | Some (SemShAdd aw), IOp (ShAdd n) d a b =>
      (aw =? w) && op_ok w (ShAdd n) b && is_dst S short r ir 0 d && sr 0%nat a && sr 1%nat b && is_lit S ir 2 n
  | Some (SemShAddUw aw), IOp (ShAddUw n) d a b =>
      (aw =? w) && op_ok w (ShAddUw n) b && is_dst S short r ir 0 d && sr 0%nat a && sr 1%nat b && is_lit S ir 2 n
  | Some (SemUpper aw op), IUpper op' d o =>
      (aw =? w) && iop_eqb op op' && (iop_eqb op Lui || iop_eqb op Auipc) && is_dst S short r ir 0 d &&
      match get_src S (i_src ir) 0 with
      | Some (SImm fm fld true) => agrees o fm fld && fits short o && (o_width o <=? 32)
      | _ => false end
  | Some (SemJal aw), IJal d off => (aw =? w) && is_pc S ir 0 && is_dst S short r ir 1 d && sr 0%nat off && even_imm off
  | Some (SemJalr aw), IJalr d base off =>
      (aw =? w) && is_pc S ir 0 && is_dst S short r ir 1 d && sr 0%nat base && sr 1%nat off
  | Some (SemBranch aw c), IBranch c' a b off =>
      (aw =? w) && branch_eqb c c' && is_pc S ir 0 && sr 0%nat a && sr 1%nat b && sr 2%nat off && even_imm off
  | Some (SemLoad aw n), ILoad k d base off =>
      (aw =? w) && (Nat.eqb n (load_bytes k)) && is_dst S short r ir 0 d && sr 0%nat base && sr 1%nat off &&
      ((w =? 64) || negb (load_eqb k Ld || load_eqb k Lwu)) &&
      match assoc semfuncs (i_child ir) with
      | Some (SemLoadChild aw' k') => (aw' =? w) && load_eqb k' k
      | _ => false end
  | Some (SemStore aw k), IStore k' base off v =>
      (aw =? w) && store_eqb k k' && sr 0%nat base && sr 1%nat off && sr 2%nat v && reg_opd v
  | Some (SemLoad aw n), IFload dbl fd base off =>
      ((aw =? w) || wide_ok aw off) && reg_opd base && (Nat.eqb n (if dbl then 8 else 4)) && is_fdst S short ir 0 fd &&
      sr 0%nat base && sr 1%nat off &&
      match assoc semfuncs (i_child ir) with
      | Some (SemLoadChild aw' k') => dbl && (aw' =? 64) && load_eqb k' Ld
      | Some SemFlwChild => negb dbl
      | _ => false end
  | Some (SemStore aw k), IFstore dbl base off fs | Some (SemFstore aw k), IFstore dbl base off fs =>
      ((aw =? w) || wide_ok aw off) && reg_opd base && store_eqb k (if dbl then Sd else Sw) && sr 0%nat base && sr 1%nat off && is_fsrc S short ir 2 fs
  | Some SemNop, _ => nop_ok w r i
  | _, _ => false
  end.
(** The address is computed in 64 bits on RV32. *)
Definition wide (S : simulator) (ir : irow) : bool :=
  negb (s_xlen S =? 64) &&
  match assoc semfuncs (i_sem ir) with
  | Some (SemLoad aw _) | Some (SemStore aw _) | Some (SemFstore aw _) => negb (aw =? s_xlen S)
  | _ => false end.

(** Opcodes of entries that share an opcode with [e]. *)
Definition related (D : decoder_spec) (e : entry) : list string :=
  (opcodes e ++ List.concat (map (fun e' =>
     if existsb (fun o => existsb (String.eqb o) (opcodes e)) (opcodes e') then opcodes e' else []) (ds_manual D)))%list.
Definition entry_ok (S : simulator) (short : bool) (D : decoder_spec) (rows : list row) (e : entry) (i : instr) : bool :=
  let ops := related D e in
  forallb (fun r =>
    if existsb (String.eqb (r_name r)) ops then
      match find (fun ir => String.eqb (i_name ir) (r_name r)) (s_isa S) with
      | Some ir => row_ok S short r ir i &&
                   (negb (wide S ir) || existsb (String.eqb (mnemonic e)) ["c.fld"; "c.fldsp"; "c.fsdsp"])
      | None => false end
    else true) rows.
Definition skipped (broken : list string) (e : entry) (i : instr) : bool :=
  existsb (String.eqb (mnemonic e)) broken || match i with IOp Cpopw _ _ _ => true | _ => false end.
Definition table_ok (S : simulator) (short : bool) (broken : list string) (D : decoder_spec) (rows : list row) : bool :=
  forallb (fun e => match semantics (s_xlen S) (mnemonic e) with
                    | Some i => skipped broken e i || entry_ok S short D rows e i
                    | None => true end) (ds_manual D).
