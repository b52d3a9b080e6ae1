(** Model of the integer semantic functions:
    /repo/riscv/riscv_i_instructions.cc, riscv_m_instructions.cc,
    riscv_bitmanip_instructions.cc, riscv_b_instructions.cc,
    riscv_zicond_instructions.cc, riscv_instruction_helpers.h.
    A register of an xlen-bit hart is an integer in [0, 2^xlen).  A C++ lambda is a
    function from operand values to [option Z]; None is undefined behaviour (signed
    overflow).  std::function and operand plumbing are omitted. *)
From Coq Require Import ZArith Bool List.
From Verif Require Import Bits IntSpec.
Import ListNotations.
Local Open Scope Z_scope.

(** How signed overflow is compiled: undefined (ISO C++) or wrapping (-fwrapv).  The
    repository does not pass -fwrapv (no copts in riscv/BUILD name it), so [Iso] is the
    language semantics; [Wrapv] is what the functions do when the compiler emits the plain
    machine addition. *)
Inductive ovf := Iso | Wrapv.
(** C++ signed arithmetic of width [w] on the exact result [x] (language rule, used by
    the lambdas of riscv_i_instructions.cc:201-220 and riscv_m_instructions.cc:41-242). *)
Definition schk (m : ovf) (w x : Z) : option Z :=
  if (- 2 ^ (w - 1) <=? x) && (x <? 2 ^ (w - 1)) then Some x
  else match m with Iso => None | Wrapv => Some (sgn w x) end.
(** Sequencing of possibly undefined computations (no counterpart in the code). *)
Definition bind {A B} (o : option A) (f : A -> option B) : option B :=
  match o with Some x => f x | None => None end.

(** Shift-amount mask: 0x1f (riscv_i_instructions.cc:116) / 0x3f (249). *)
Definition shmask (w : Z) : Z := if w =? 32 then 0x1f else 0x3f.
(** Source operand read as NarrowIntReg / NarrowUIntReg (riscv_i_instructions.cc:203, 271). *)
Definition s32 (a : Z) : Z := sgn 32 a.
(** riscv_i_instructions.cc:203, 271. *)
Definition u32 (a : Z) : Z := wrap 32 a.
(** static_cast<IntReg> of an int32 value (riscv_i_instructions.cc:204). *)
Definition sext64 (x : Z) : Z := wrap 64 x.

(** riscv_i_instructions.cc:79-127 (RV32), 196-200, 209-213, 222-260 (RV64). *)
Definition i_add (w a b : Z) := Some (wrap w (a + b)).
(** riscv_i_instructions.cc:79-127. *)
Definition i_sub (w a b : Z) := Some (wrap w (a - b)).
(** riscv_i_instructions.cc:79-127. *)
Definition i_slt (w a b : Z) := Some (if sgn w a <? sgn w b then 1 else 0).
(** riscv_i_instructions.cc:79-127. *)
Definition i_sltu (w a b : Z) := Some (if a <? b then 1 else 0).
(** riscv_i_instructions.cc:79-127. *)
Definition i_and (a b : Z) := Some (Z.land a b).
(** riscv_i_instructions.cc:79-127. *)
Definition i_or (a b : Z) := Some (Z.lor a b).
(** riscv_i_instructions.cc:79-127. *)
Definition i_xor (a b : Z) := Some (Z.lxor a b).
(** riscv_i_instructions.cc:79-127. *)
Definition i_sll (w a b : Z) := Some (wrap w (Z.shiftl a (Z.land b (shmask w)))).
(** riscv_i_instructions.cc:79-127. *)
Definition i_srl (w a b : Z) := Some (Z.shiftr a (Z.land b (shmask w))).
(** riscv_i_instructions.cc:79-127. *)
Definition i_sra (w a b : Z) := Some (wrap w (Z.shiftr (sgn w a) (Z.land (sgn w b) (shmask w)))).
(** riscv_i_instructions.cc: RV32 lui 131-134, auipc 139-144 (uint32_t); RV64 lui 286-292,
    auipc 296-302 (int32_t, widened). *)
Definition i_lui (w a : Z) :=
  if w =? 32 then Some (Z.land (u32 a) (wnot 32 0xfff))
  else Some (wrap 64 (Z.land (s32 a) (Z.lnot 0xfff))).
(** riscv_i_instructions.cc:79-127. *)
Definition i_auipc (w a addr : Z) :=
  if w =? 32 then Some (wrap 32 (Z.land (u32 a) (wnot 32 0xfff) + addr))
  else Some (wrap 64 (Z.land (s32 a) (Z.lnot 0xfff) + addr)).
(** riscv_i_instructions.cc: RV64 addw 201-207, subw 214-220: a + b in int32_t. *)
Definition i_addw (o : ovf) (a b : Z) := bind (schk o 32 (s32 a + s32 b)) (fun c => Some (sext64 c)).
(** riscv_i_instructions.cc:79-127. *)
Definition i_subw (o : ovf) (a b : Z) := bind (schk o 32 (s32 a - s32 b)) (fun c => Some (sext64 c)).
(** riscv_i_instructions.cc: sllw 262-267, srlw 269-275, sraw 277-282 (C++20: signed left shift is modular). *)
Definition i_sllw (a b : Z) := Some (sext64 (sgn 32 (Z.shiftl (s32 a) (Z.land (s32 b) 0x1f)))).
(** riscv_i_instructions.cc:79-127. *)
Definition i_srlw (a b : Z) := Some (sext64 (sgn 32 (Z.shiftr (u32 a) (Z.land (u32 b) 0x1f)))).
(** riscv_i_instructions.cc:79-127. *)
Definition i_sraw (a b : Z) := Some (sext64 (Z.shiftr (s32 a) (Z.land (s32 b) 0x1f))).

(** riscv_m_instructions.cc:41-61 (RV32), 117-137 (RV64): double-width products. *)
Definition m_mul (o : ovf) (w a b : Z) := bind (schk o (2 * w) (sgn w a * sgn w b)) (fun c => Some (wrap w (Z.land c (2 ^ w - 1)))).
(** riscv_m_instructions.cc:41-61. *)
Definition m_mulh (o : ovf) (w a b : Z) := bind (schk o (2 * w) (sgn w a * sgn w b)) (fun c => Some (wrap w (Z.shiftr c w))).
(** riscv_m_instructions.cc:41-61. *)
Definition m_mulhu (w a b : Z) := Some (wrap w (Z.shiftr (wrap (2 * w) (a * b)) w)).
(** riscv_m_instructions.cc:63-69 RV32: the signed operand is converted to uint64_t. *)
Definition m_mulhsu_32 (a b : Z) := Some (wrap 32 (Z.shiftr (sgn 64 (wrap 64 (wrap 64 (sgn 32 a) * b))) 32)).
(** riscv_m_instructions.cc:139-157 RV64. *)
Definition m_mulhsu_64 (o : ovf) (a b : Z) :=
  let a_wide := sgn 64 a in
  let negate := a_wide <? 0 in
  bind (if negate then schk o 128 (- a_wide) else Some a_wide) (fun a_wide =>
  let c_wide := sgn 128 (wrap 128 (wrap 128 a_wide * b)) in
  bind (if negate then schk o 128 (- c_wide) else Some c_wide) (fun c_wide =>
  Some (wrap 64 (Z.shiftr c_wide 64)))).
(** riscv_m_instructions.cc:139-157. *)
Definition m_mulhsu (o : ovf) (w a b : Z) := if w =? 32 then m_mulhsu_32 a b else m_mulhsu_64 o a b.
(** riscv_m_instructions.cc:71-103 (RV32), 159-191 (RV64); C++ division truncates. *)
Definition m_div_s (o : ovf) (w a b : Z) : option Z :=
  if b =? 0 then Some (-1)
  else if (b =? -1) && (a =? - 2 ^ (w - 1)) then Some (- 2 ^ (w - 1))
  else schk o w (Z.quot a b).
(** riscv_m_instructions.cc:71-103. *)
Definition m_rem_s (o : ovf) (w a b : Z) : option Z :=
  if b =? 0 then Some a
  else if (b =? -1) && (a =? - 2 ^ (w - 1)) then Some 0
  else bind (schk o w (Z.quot a b)) (fun _ => Some (Z.rem a b)).
(** riscv_m_instructions.cc:71-103. *)
Definition m_div (o : ovf) (w a b : Z) := bind (m_div_s o w (sgn w a) (sgn w b)) (fun c => Some (wrap w c)).
(** riscv_m_instructions.cc:71-103. *)
Definition m_rem (o : ovf) (w a b : Z) := bind (m_rem_s o w (sgn w a) (sgn w b)) (fun c => Some (wrap w c)).
(** riscv_m_instructions.cc:71-103. *)
Definition m_divu (w a b : Z) := Some (if b =? 0 then 2 ^ w - 1 else a / b).
(** riscv_m_instructions.cc:71-103. *)
Definition m_remu (w a b : Z) := Some (if b =? 0 then a else a mod b).
(** riscv_m_instructions.cc:193-240 RV64 word forms. *)
Definition m_mulw (o : ovf) (a b : Z) := bind (schk o 32 (s32 a * s32 b)) (fun c => Some (sext64 c)).
(** riscv_m_instructions.cc:193-240. *)
Definition m_divw (o : ovf) (a b : Z) := bind (m_div_s o 32 (s32 a) (s32 b)) (fun c => Some (sext64 c)).
(** riscv_m_instructions.cc:193-240. *)
Definition m_divuw (a b : Z) := Some (if u32 b =? 0 then 2 ^ 64 - 1 else sext64 (sgn 32 (u32 a / u32 b))).
(** riscv_m_instructions.cc:193-240. *)
Definition m_remw (o : ovf) (a b : Z) := bind (m_rem_s o 32 (s32 a) (s32 b)) (fun c => Some (sext64 c)).
(** riscv_m_instructions.cc:193-240. *)
Definition m_remuw (a b : Z) := Some (if u32 b =? 0 then sext64 (sgn 32 (u32 a)) else sext64 (sgn 32 (u32 a mod u32 b))).

(** absl::countl_zero / countr_zero / popcount on a [w]-bit value, as bit loops (library
    functions called at riscv_bitmanip_instructions.cc:72-87, 311-341). *)
Fixpoint count_lead (n : nat) (a : Z) : Z :=
  match n with O => 0 | S n' => if Z.testbit a (Z.of_nat n') then 0 else 1 + count_lead n' a end.
(** riscv_bitmanip_instructions.cc:72-87, 311-341. *)
Fixpoint count_trail (n : nat) (i a : Z) : Z :=
  match n with O => 0 | S n' => if Z.testbit a i then 0 else 1 + count_trail n' (i + 1) a end.
(** riscv_bitmanip_instructions.cc:72-87, 311-341. *)
Fixpoint pop_loop (n : nat) (a : Z) : Z :=
  match n with O => 0 | S n' => Z.land a 1 + pop_loop n' (Z.shiftr a 1) end.
(** riscv_bitmanip_instructions.cc:72-87, 311-341. *)
Definition countl_zero (w a : Z) := count_lead (Z.to_nat w) a.
(** riscv_bitmanip_instructions.cc:72-87, 311-341. *)
Definition countr_zero (w a : Z) := count_trail (Z.to_nat w) 0 a.
(** riscv_bitmanip_instructions.cc:72-87, 311-341. *)
Definition popcount (w a : Z) := pop_loop (Z.to_nat w) a.

(** riscv_bitmanip_instructions.cc:42-69 (RV32), 259-308 (RV64); a shift count of 64 or
    more is undefined. *)
Definition z_adduw (a b : Z) := Some (wrap 64 (b + Z.land a 0xffffffff)).
(** riscv_bitmanip_instructions.cc:42-69. *)
Definition z_shadd (w shift a b : Z) := Some (wrap w (b + wrap w (Z.shiftl a shift))).
(** riscv_bitmanip_instructions.cc:42-69. *)
Definition z_shadduw (shift a b : Z) := Some (wrap 64 (b + wrap 64 (Z.shiftl (Z.land a 0xffffffff) shift))).
(** riscv_bitmanip_instructions.cc:42-69. *)
Definition z_slliuw (a shift : Z) :=
  if u32 shift <? 64 then Some (wrap 64 (Z.shiftl (Z.land (u32 a) 0xffffffff) (u32 shift))) else None.
(** riscv_bitmanip_instructions.cc:42-69. *)
Definition z_andn (w a b : Z) := Some (Z.land a (wnot w b)).
(** riscv_bitmanip_instructions.cc:42-69. *)
Definition z_orn (w a b : Z) := Some (Z.lor a (wnot w b)).
(** riscv_bitmanip_instructions.cc:42-69. *)
Definition z_xnor (w a b : Z) := Some (wnot w (Z.lxor a b)).
(** riscv_bitmanip_instructions.cc:42-69. *)
Definition z_not (w a : Z) := Some (wnot w a).
(** riscv_bitmanip_instructions.cc:72-87 (RV32), 311-341 (RV64). *)
Definition z_clz (w a : Z) := Some (countl_zero w a).
(** riscv_bitmanip_instructions.cc:72-87. *)
Definition z_clzw (a : Z) := Some (countl_zero 32 (u32 a)).
(** riscv_bitmanip_instructions.cc:72-87. *)
Definition z_ctz (w a : Z) := Some (countr_zero w a).
(** riscv_bitmanip_instructions.cc:72-87. *)
Definition z_ctzw (a : Z) := Some (countr_zero 32 (u32 a)).
(** riscv_bitmanip_instructions.cc:72-87. *)
Definition z_cpop (w a : Z) := Some (popcount w a).
(** riscv_bitmanip_instructions.cc:72-87. *)
Definition z_cpopw (a : Z) := Some (popcount 32 (u32 a)).
(** riscv_bitmanip_instructions.cc:90-111 (RV32), 344-365 (RV64); std::max, std::min. *)
Definition z_max (w a b : Z) := Some (wrap w (if sgn w a <? sgn w b then sgn w b else sgn w a)).
(** riscv_bitmanip_instructions.cc:90-111. *)
Definition z_maxu (a b : Z) := Some (if a <? b then b else a).
(** riscv_bitmanip_instructions.cc:90-111. *)
Definition z_min (w a b : Z) := Some (wrap w (if sgn w b <? sgn w a then sgn w b else sgn w a)).
(** riscv_bitmanip_instructions.cc:90-111. *)
Definition z_minu (a b : Z) := Some (if b <? a then b else a).
(** riscv_bitmanip_instructions.cc:114-137 (RV32), 368-391 (RV64). *)
Definition z_sextb (w a : Z) := Some (wrap w (sgn 8 a)).
(** riscv_bitmanip_instructions.cc:114-137. *)
Definition z_sexth (w a : Z) := Some (wrap w (sgn 16 a)).
(** riscv_bitmanip_instructions.cc:114-137. *)
Definition z_zextb (a : Z) := Some (wrap 8 a).
(** riscv_bitmanip_instructions.cc:114-137. *)
Definition z_zexth (a : Z) := Some (wrap 16 a).
(** riscv_bitmanip_instructions.cc:140-157 (RV32), 394-435 (RV64). *)
Definition rotl (w a shamt : Z) : Z :=
  if shamt =? 0 then a else Z.lor (wrap w (Z.shiftl a shamt)) (Z.shiftr a (w - shamt)).
(** riscv_bitmanip_instructions.cc:140-157. *)
Definition rotr (w a shamt : Z) : Z :=
  if shamt =? 0 then a else Z.lor (Z.shiftr a shamt) (wrap w (Z.shiftl a (w - shamt))).
(** riscv_bitmanip_instructions.cc:140-157. *)
Definition z_rol (w a b : Z) := Some (rotl w a (Z.land b (shmask w))).
(** riscv_bitmanip_instructions.cc:140-157. *)
Definition z_ror (w a b : Z) := Some (rotr w a (Z.land b (shmask w))).
(** riscv_bitmanip_instructions.cc:140-157. *)
Definition z_rolw (a b : Z) := Some (sext64 (sgn 32 (rotl 32 (u32 a) (Z.land (u32 b) 0x1f)))).
(** riscv_bitmanip_instructions.cc:140-157. *)
Definition z_rorw (a b : Z) := Some (sext64 (sgn 32 (rotr 32 (u32 a) (Z.land (u32 b) 0x1f)))).
(** riscv_bitmanip_instructions.cc:160-172 (RV32), 438-450 (RV64) orc.b: [n] iterations left. *)
Fixpoint orcb_loop (w : Z) (n : nat) (a mask result : Z) : Z :=
  match n with
  | O => result
  | S n' => orcb_loop w n' a (wrap w (Z.shiftl mask 8)) (if Z.land a mask =? 0 then result else Z.lor result mask)
  end.
(** riscv_bitmanip_instructions.cc:160-172. *)
Definition z_orcb (w a : Z) := Some (orcb_loop w (Z.to_nat (w / 8)) a 0xff 0).
(** riscv_bitmanip_instructions.cc:175-185 (RV32), 453-463 (RV64) rev8. *)
Fixpoint rev8_loop (w : Z) (n : nat) (a result : Z) : Z :=
  match n with
  | O => result
  | S n' => rev8_loop w n' (Z.shiftr a 8) (Z.lor (wrap w (Z.shiftl result 8)) (Z.land a 0xff))
  end.
(** riscv_bitmanip_instructions.cc:175-185. *)
Definition z_rev8 (w a : Z) := Some (rev8_loop w (Z.to_nat (w / 8)) a 0).
(** riscv_bitmanip_instructions.cc:188-221 (RV32), 466-499 (RV64): loop over i = lo, lo+1, ..., n iterations;
    [term i] is the shifted operand. *)
Fixpoint clmul_loop (n : nat) (i : Z) (term : Z -> Z) (b result : Z) : Z :=
  match n with
  | O => result
  | S n' => clmul_loop n' (i + 1) term b
              (if Z.land (Z.shiftr b i) 1 =? 0 then result else Z.lxor result (term i))
  end.
(** riscv_bitmanip_instructions.cc:188-221. *)
Definition z_clmul (w a b : Z) := Some (clmul_loop (Z.to_nat w) 0 (fun i => wrap w (Z.shiftl a i)) b 0).
(** riscv_bitmanip_instructions.cc:188-221. *)
Definition z_clmulh (w a b : Z) := Some (clmul_loop (Z.to_nat (w - 1)) 1 (fun i => Z.shiftr a (w - i)) b 0).
(** riscv_bitmanip_instructions.cc: RV32 212-221 stops at i < kXlen - 1; RV64 490-499 at i < kXlen. *)
Definition z_clmulr (w a b : Z) :=
  Some (clmul_loop (Z.to_nat (if w =? 32 then w - 1 else w)) 0 (fun i => Z.shiftr a (w - i - 1)) b 0).
(** riscv_bitmanip_instructions.cc:224-247 (RV32), 502-527 (RV64). *)
Definition z_bclr (w a b : Z) := Some (Z.land a (wnot w (wrap w (Z.shiftl 1 (Z.land b (shmask w)))))).
(** riscv_bitmanip_instructions.cc:224-247. *)
Definition z_bext (w a b : Z) := Some (Z.land (Z.shiftr a (Z.land b (shmask w))) 1).
(** riscv_bitmanip_instructions.cc:224-247. *)
Definition z_binv (w a b : Z) := Some (Z.lxor a (wrap w (Z.shiftl 1 (Z.land b (shmask w))))).
(** riscv_bitmanip_instructions.cc:224-247. *)
Definition z_bset (w a b : Z) := Some (Z.lor a (wrap w (Z.shiftl 1 (Z.land b (shmask w))))).

(** riscv_zicond_instructions.cc:30-40 (RV32), 51-61 (RV64). *)
Definition c_eqz (a b : Z) := Some (if b =? 0 then 0 else a).
(** riscv_zicond_instructions.cc:30-40. *)
Definition c_nez (a b : Z) := Some (if negb (b =? 0) then 0 else a).

(** Value computed by the semantic function of [op]. *)
Definition iop_value (o : ovf) (w : Z) (op : iop) (a b : Z) : option Z :=
  match op with
  | Add => i_add w a b | Sub => i_sub w a b | Slt => i_slt w a b | Sltu => i_sltu w a b
  | And => i_and a b | Or => i_or a b | Xor => i_xor a b
  | Sll => i_sll w a b | Srl => i_srl w a b | Sra => i_sra w a b
  | Lui => i_lui w a | Auipc => i_auipc w a b
  | Addw => i_addw o a b | Subw => i_subw o a b | Sllw => i_sllw a b | Srlw => i_srlw a b | Sraw => i_sraw a b
  | Mul => m_mul o w a b | Mulh => m_mulh o w a b | Mulhu => m_mulhu w a b | Mulhsu => m_mulhsu o w a b
  | Div => m_div o w a b | Divu => m_divu w a b | Rem => m_rem o w a b | Remu => m_remu w a b
  | Mulw => m_mulw o a b | Divw => m_divw o a b | Divuw => m_divuw a b | Remw => m_remw o a b | Remuw => m_remuw a b
  | AddUw => z_adduw a b | ShAdd n => z_shadd w n a b | ShAddUw n => z_shadduw n a b | SlliUw => z_slliuw a b
  | Andn => z_andn w a b | Orn => z_orn w a b | Xnor => z_xnor w a b | Not => z_not w a
  | Clz => z_clz w a | Clzw => z_clzw a | Ctz => z_ctz w a | Ctzw => z_ctzw a
  | Cpop => z_cpop w a | Cpopw => z_cpopw a
  | Max => z_max w a b | Maxu => z_maxu a b | Min => z_min w a b | Minu => z_minu a b
  | SextB => z_sextb w a | SextH => z_sexth w a | ZextB => z_zextb a | ZextH => z_zexth a
  | ZextW => None (* not in riscv_bitmanip_instructions.cc: assembled as add.uw rd, rs, x0 *)
  | Rol => z_rol w a b | Rolw => z_rolw a b | Ror => z_ror w a b | Rorw => z_rorw a b
  | Orcb => z_orcb w a | Rev8 => z_rev8 w a
  | Clmul => z_clmul w a b | Clmulh => z_clmulh w a b | Clmulr => z_clmulr w a b
  | Bclr => z_bclr w a b | Bext => z_bext w a b | Binv => z_binv w a b | Bset => z_bset w a b
  | CzeroEqz => c_eqz a b | CzeroNez => c_nez a b
  end.

(** riscv_instruction_helpers.h:300-345 RiscVBinaryOp/RiscVUnaryOp: Set<Result>(0, v)
    on the register's buffer overwrites its first sizeof(Result) bytes. *)
Definition set_low (bits old v : Z) : Z := wrap bits v + 2 ^ bits * (old / 2 ^ bits).
(** sizeof(Result) * 8: the register width, except RV64 cpopw
    (riscv_bitmanip_instructions.cc:338-341: Result = uint32_t). *)
Definition result_bits (w : Z) (op : iop) : Z := match op with Cpopw => 32 | _ => w end.
(** New contents of rd, given the old ones. *)
Definition iop_exec (o : ovf) (w : Z) (op : iop) (a b rd : Z) : option Z :=
  bind (iop_value o w op a b) (fun v => Some (set_low (result_bits w op) rd v)).

(** ** The second RV64 implementation, riscv_b_instructions.cc, where it differs. *)
(** riscv_b_instructions.cc:40-45 shNadd (int64_t via uint64_t), 50-55 shNadd.uw, 59-62 add.uw. *)
Definition b_shadd (shift a b : Z) := Some (wrap 64 (wrap 64 (Z.shiftl (wrap 64 (sgn 64 a)) shift) + wrap 64 (sgn 64 b))).
(** riscv_b_instructions.cc:40-45. *)
Definition b_shadduw (shift a b : Z) := Some (wrap 64 (wrap 64 (Z.shiftl (Z.land a 0xffffffff) shift) + b)).
(** riscv_b_instructions.cc:40-45. *)
Definition b_adduw (a b : Z) := Some (wrap 64 (Z.land a 0xffffffff + b)).
(** riscv_b_instructions.cc:88-91: the operands are read as int32_t, the first is widened to uint64_t. *)
Definition b_slliuw (a b : Z) :=
  if (0 <=? s32 b) && (s32 b <? 64)
  then Some (wrap 64 (Z.shiftl (Z.land (wrap 64 (s32 a)) 0xffffffff) (s32 b))) else None.
(** riscv_b_instructions.cc:103-106. *)
Definition b_xnor (a b : Z) := Some (Z.lxor a (wnot 64 b)).
(** riscv_b_instructions.cc:137-141. *)
Definition b_cpopw (a : Z) := Some (popcount 64 (Z.land a 0xffffffff)).
(** riscv_b_instructions.cc:163-182. *)
Definition b_sexth (a : Z) :=
  Some (if Z.land (2 ^ 15) (sgn 64 a) =? 0 then Z.land a 0xffff else Z.lor a 0xffffffffffff0000).
(** riscv_b_instructions.cc:163-182. *)
Definition b_sextb (a : Z) :=
  Some (if Z.land (2 ^ 7) (sgn 64 a) =? 0 then Z.land a 0xff else Z.lor a 0xffffffffffffff00).
(** riscv_b_instructions.cc:184-192. *)
Definition b_zextw (a : Z) := Some (Z.land a 0xffffffff).
(** riscv_b_instructions.cc:184-192. *)
Definition b_zexth (a : Z) := Some (Z.land a 0xffff).
(** riscv_b_instructions.cc:200-230 absl::rotl/rotr and explicit sign extension. *)
Definition b_sign32 (v : Z) : Z := if Z.land v 0x80000000 =? 0 then v else Z.lor v 0xffffffff00000000.
(** riscv_b_instructions.cc:200-230. *)
Definition b_rolw (a b : Z) := Some (b_sign32 (rotl 32 (u32 a) (Z.land b 0x1f))).
(** riscv_b_instructions.cc:200-230. *)
Definition b_rorw (a b : Z) := Some (b_sign32 (rotr 32 (u32 a) (Z.land b 0x1f))).
(** riscv_b_instructions.cc:242-253 orc.b with an indexed mask. *)
Fixpoint b_orcb_loop (n : nat) (i a result : Z) : Z :=
  match n with
  | O => result
  | S n' => let mask := wrap 64 (Z.shiftl 0xff (8 * i)) in
            b_orcb_loop n' (i + 1) a (if Z.land a mask =? 0 then result else Z.lor result mask)
  end.
(** riscv_b_instructions.cc:242-253. *)
Definition b_orcb (a : Z) := Some (b_orcb_loop 8 0 a 0).
(** riscv_b_instructions.cc:255-270 rev8 through byte spans of the little-endian host representation. *)
Definition byte_of (a i : Z) : Z := Z.land (Z.shiftr a (8 * i)) 0xff.
(** riscv_b_instructions.cc:255-270. *)
Definition put_byte (x i v : Z) : Z := Z.lor (Z.land x (wnot 64 (Z.shiftl 0xff (8 * i)))) (Z.shiftl v (8 * i)).
(** riscv_b_instructions.cc:255-270. *)
Definition b_rev8 (a : Z) :=
  Some (fold_left (fun out i => put_byte out (7 - i) (byte_of a i)) (zrange 8) 0).
(** The functions of riscv_b_instructions.cc; those not listed above are written exactly
    as in riscv_bitmanip_instructions.cc, and the instructions the file lacks are None. *)
Definition b_value (op : iop) (a b : Z) : option Z :=
  match op with
  | AddUw => b_adduw a b | ShAdd n => b_shadd n a b | ShAddUw n => b_shadduw n a b | SlliUw => b_slliuw a b
  | Andn => z_andn 64 a b | Orn => z_orn 64 a b | Xnor => b_xnor a b
  | Clz => z_clz 64 a | Clzw => z_clzw a | Ctz => z_ctz 64 a | Ctzw => z_ctzw a
  | Cpop => z_cpop 64 a | Cpopw => b_cpopw a
  | Max => z_max 64 a b | Maxu => z_maxu a b | Min => z_min 64 a b | Minu => z_minu a b
  | SextB => b_sextb a | SextH => b_sexth a | ZextW => b_zextw a | ZextH => b_zexth a
  | Rol => z_rol 64 a b | Rolw => b_rolw a b | Ror => z_ror 64 a b | Rorw => b_rorw a b
  | Orcb => b_orcb a | Rev8 => b_rev8 a
  | _ => None
  end.
(** Model only: the instructions of riscv_b_instructions.cc. *)
Definition in_b_file (op : iop) : bool :=
  match op with
  | AddUw | ShAdd _ | ShAddUw _ | SlliUw | Andn | Orn | Xnor | Clz | Clzw | Ctz | Ctzw | Cpop | Cpopw
  | Max | Maxu | Min | Minu | SextB | SextH | ZextW | ZextH | Rol | Rolw | Ror | Rorw | Orcb | Rev8 => true
  | _ => false
  end.
(** All results in this file are 64 bits wide. *)
Definition b_exec (op : iop) (a b rd : Z) : option Z :=
  bind (b_value op a b) (fun v => Some (set_low 64 rd v)).
