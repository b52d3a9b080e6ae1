(** Model of the element-wise vector instructions: the loops of
    /repo/riscv/riscv_vector_instruction_helpers.h and the element functions of
    riscv_vector_{opi,opm,unary,basic_bit_manipulation}_instructions.cc. *)
From Coq Require Import ZArith Bool List.
From Verif Require Import Bits Memory IntModel VelemSpec VcfgModel.
Import ListNotations.
Local Open Scope Z_scope.

(** Model only: the vector register file as one byte array (register r, byte k at r * vlenb + k) and
    the members of RiscVVectorState. *)
Record vstate := { regs : mem; cfg : vcfg }.

(** riscv_getters_vector.h:45 kNumRegTable, 47-60 GetVRegGroup: registers in the group operand of
    register [r]. *)
Definition num_regs (r : Z) : Z := nth (Z.to_nat (r mod 8)) [8; 1; 2; 1; 4; 1; 2; 1] 0.

(** riscv_register.cc:77-131 RV32VectorSourceOperand::As{Int,Uint}{8,16,32,64}; None: index past the
    registers_ vector. *)
Definition read_elem (vb : Z) (rf : mem) (r w i : Z) : option Z :=
  let epv := vb / w in
  let group := i / epv in
  let offset := i mod epv in
  if group <? num_regs r then Some (load_le rf ((r + group) * vb + offset * w) (Z.to_nat w)) else None.
(** Source 1: a vector operand, or a scalar register or immediate, for which the operand interface
    (mpact-sim, not in /repo) returns a value of the requested width for every index
    (riscv_vector_instruction_helpers.h:425, 432-433). *)
Definition read_src1 (vb : Z) (rf : mem) (w : Z) (s : src) (i : Z) : option Z :=
  match s with Vec r => read_elem vb rf r w i | Scalar x => Some (wrap (8 * w) x) end.
(** riscv_getters_vector.h:119-128 (mask operand: v0 or all ones) and
    riscv_vector_instruction_helpers.h:427-429. *)
Definition mask_value (rf : mem) (vm : bool) (i : Z) : bool :=
  if vm then true else negb (Z.land (Z.shiftr (rf (Z.shiftr i 3)) (Z.land i 7)) 1 =? 0).

(** C++ integer types: conversion to, and largest value of, a type of [w] bits. *)
Definition cast (sg : bool) (w x : Z) : Z := if sg then sgn w x else wrap w x.
(** numeric_limits<T>::max() (standard library). *)
Definition tmax (sg : bool) (w : Z) : Z := if sg then 2 ^ (w - 1) - 1 else 2 ^ w - 1.
(** numeric_limits<T>::min() (standard library). *)
Definition tmin (sg : bool) (w : Z) : Z := if sg then - 2 ^ (w - 1) else 0.

(** riscv_vector_instruction_helpers.h:702-705, 714-717: (bits & ~(max << k)) != 0, evaluated in the
    promoted type of T. *)
Definition sticky (sg : bool) (w bits k : Z) : Z :=
  let pw := Z.max 32 w in
  if Z.land (wrap pw bits) (wnot pw (wrap pw (Z.shiftl (tmax sg w) k))) =? 0 then 0 else 1.
(** riscv_vector_instruction_helpers.h:692-725 GetRoundingBit<T>, T of [w] bits. *)
Definition get_rounding_bit (sg : bool) (w rm bits size : Z) : Z :=
  if rm =? 0 then (if size <? 2 then 0 else Z.land (Z.shiftr bits (size - 2)) 1)
  else if rm =? 1 then
    let v_d_minus_1 := if size <? 2 then 0 else Z.land (Z.shiftr bits (size - 2)) 1 in
    let v_d := if size =? 0 then 0 else Z.land (Z.shiftr bits (size - 1)) 1 in
    let v_d_minus_2_0 := if size <? 3 then 0 else sticky sg w bits (size - 2) in
    Z.land v_d_minus_1 (Z.lor v_d_minus_2_0 v_d)
  else if rm =? 2 then 0
  else if rm =? 3 then
    let v_d_minus_1_0 := if size <? 2 then 0 else sticky sg w bits (size - 1) in
    let v_d := Z.land (Z.shiftr bits (size - 1)) 1 in
    Z.land (if v_d =? 0 then 1 else 0) v_d_minus_1_0
  else 0.
(** riscv_vector_instruction_helpers.h:727-732 RoundOff<T>. *)
Definition round_off (sg : bool) (w rm value size : Z) : Z :=
  Z.shiftr value size + get_rounding_bit sg w rm value (size + 1).

(** riscv_vector_opi_instructions.cc:793-805 VsaddHelper. *)
Definition vsadd_helper (b vs2 vs1 : Z) : Z * bool :=
  let sum := sgn b (wrap b (wrap b vs2 + wrap b vs1)) in
  if (0 <=? Z.lxor vs2 vs1) && (Z.lxor sum vs2 <? 0)
  then ((if 0 <? vs2 then tmax true b else tmin true b), true) else (sum, false).
(** riscv_vector_opi_instructions.cc:890-902 VssubHelper. *)
Definition vssub_helper (b vs2 vs1 : Z) : Z * bool :=
  let diff := sgn b (wrap b (wrap b vs2 - wrap b vs1)) in
  if (Z.lxor vs2 vs1 <? 0) && (0 <=? Z.lxor diff vs1)
  then ((if vs1 <? 0 then tmax true b else tmin true b), true) else (diff, false).
(** riscv_vector_opi_instructions.cc:1166-1182 VssrHelper<T>. *)
Definition vssr_helper (sg : bool) (w rm vs2 vs1 : Z) : Z :=
  let max_shift := w - 1 in
  let shift := Z.land vs1 max_shift in
  let round_bits :=
    if shift <? max_shift then Z.land (wrap w vs2) (wnot w (wrap w (Z.shiftl (2 ^ w - 1) (shift + 1))))
    else wrap w vs2 in
  cast sg w (Z.shiftr vs2 shift + get_rounding_bit false w rm round_bits (shift + 1)).
(** riscv_vector_opi_instructions.cc:1249-1274 VnclipHelper<DT, WT, T>; [w] the bits of WT, [b] of DT. *)
Definition vnclip_helper (sg : bool) (b w rm vs2 vs1 : Z) : Z * bool :=
  let max_shift := w - 1 in
  let shift := Z.land vs1 (w - 1) in
  let mask := if shift <? max_shift then wnot w (wrap w (Z.shiftl (2 ^ w - 1) (shift + 1))) else wrap w vs2 in
  let round_bits := Z.land (wrap w vs2) mask in
  let v := cast sg w (Z.shiftr vs2 shift + get_rounding_bit false w rm round_bits (shift + 1)) in
  if tmax sg b <? v then (tmax sg b, true)
  else if v <? tmin sg b then (tmin sg b, true) else (v, false).
(** riscv_vector_opi_instructions.cc:1357-1374 VsmulHelper; WT is twice as wide. *)
Definition vsmul_helper (b rm vs2 vs1 : Z) : Z * bool :=
  let vd_w := vssr_helper true (2 * b) rm (sgn (2 * b) (vs2 * vs1)) (b - 1) in
  if vd_w <? tmin true b then (tmin true b, true)
  else if tmax true b <? vd_w then (tmax true b, true) else (vd_w, false).
(** riscv_vector_opm_instructions.cc:35-43, 113-121: the type of vs2_w + vs1_w: WideType<T>, promoted
    to int when that is (u)int16_t. *)
Definition avg_sg (sg : bool) (b : Z) : bool := if b =? 8 then true else sg.
(** As above: its width. *)
Definition avg_w (b : Z) : Z := if b =? 8 then 32 else 2 * b.
(** riscv_vector_opm_instructions.cc:35-43 VaaddHelper. *)
Definition vaadd_helper (sg : bool) (b rm vs2 vs1 : Z) : Z :=
  round_off (avg_sg sg b) (avg_w b) rm (cast (avg_sg sg b) (avg_w b) (vs2 + vs1)) 1.
(** riscv_vector_opm_instructions.cc:113-121 VasubHelper. *)
Definition vasub_helper (sg : bool) (b rm vs2 vs1 : Z) : Z :=
  round_off (avg_sg sg b) (avg_w b) rm (cast (avg_sg sg b) (avg_w b) (vs2 - vs1)) 1.
(** riscv_vector_opm_instructions.cc:438-446 VmulHighHelper. *)
Definition vmul_high (sg : bool) (b vs2 vs1 : Z) : Z := Z.shiftr (cast sg (2 * b) (vs2 * vs1)) b.
(** riscv_vector_opm_instructions.cc:521-532 VmulHighSUHelper. *)
Definition vmul_high_su (b vs2 vs1 : Z) : Z := Z.shiftr (sgn (2 * b) (vs2 * vs1)) b.
(** riscv_vector_opm_instructions.cc:1146-1154 VwmaccHelper. *)
Definition vwmacc_helper (b vs2 vs1 vd : Z) : Z :=
  wrap (2 * b) (wrap (2 * b) (wrap (2 * b) vs2 * wrap (2 * b) vs1) + vd).
(** riscv_vector_basic_bit_manipulation_instructions.cc:42-51 BitReverse. *)
Fixpoint bit_reverse (w : Z) (n : nat) (result input : Z) : Z :=
  match n with
  | O => result
  | S n' => bit_reverse w n' (Z.lor (wrap w (Z.shiftl result 1)) (Z.land input 1)) (Z.shiftr input 1)
  end.
(** riscv_vector_basic_bit_manipulation_instructions.cc:53-61 ByteSwap; [n] bytes left of [sz]. *)
Fixpoint byte_swap (sz : Z) (n : nat) (input : Z) : Z :=
  match n with
  | O => 0
  | S n' => Z.lor (byte_swap sz n' input)
              (Z.shiftl (Z.land (Z.shiftr input (Z.of_nat n' * 8)) 0xff) ((sz - 1 - Z.of_nat n') * 8))
  end.
(** riscv_vector_basic_bit_manipulation_instructions.cc:95-125 the byte loops of Vbrev8. *)
Fixpoint brev8_loop (n : nat) (x : Z) : Z :=
  match n with
  | O => 0
  | S n' => bit_reverse 8 8 0 (Z.land x 0xff) + 256 * brev8_loop n' (Z.shiftr x 8)
  end.

(** The element functions; [b] is SEW in bits, operands are unsigned encodings, the result is the
    value before conversion to the destination element type.  None: undefined behaviour. *)
Definition elem_op (o : vop) (b rm : Z) (m : bool) (x y z : Z) : option (Z * bool) :=
  let sx := sgn b x in let sy := sgn b y in
  let ok v := Some (v, false) in
  match o with
  | Vadd => ok (x + y)                                   (* opi.cc:46-71 *)
  | Vsub => ok (x - y)                                   (* opi.cc:74-99 *)
  | Vrsub => ok (y - x)                                  (* opi.cc:102-127 *)
  | Vand => ok (Z.land x y)                              (* opi.cc:132-157 *)
  | Vor => ok (Z.lor x y)                                (* opi.cc:160-185 *)
  | Vxor => ok (Z.lxor x y)                              (* opi.cc:188-213 *)
  | Vsll => ok (Z.shiftl x (Z.land y (b - 1)))           (* opi.cc:218-247 *)
  | Vsrl => ok (Z.shiftr x (Z.land y (b - 1)))           (* opi.cc:250-279 *)
  | Vsra => ok (Z.shiftr sx (Z.land sy (b - 1)))         (* opi.cc:282-311 *)
  | Vnsrl => ok (Z.shiftr x (Z.land y (2 * b - 1)))      (* opi.cc:317-347 *)
  | Vnsra => ok (Z.shiftr (sgn (2 * b) x) (Z.land sy (2 * b - 1))) (* opi.cc:351-384 *)
  | Vminu => ok (if y <? x then y else x)                (* opi.cc:387-416 *)
  | Vmin => ok (if sy <? sx then sy else sx)             (* opi.cc:419-447 *)
  | Vmaxu => ok (if x <? y then y else x)                (* opi.cc:450-479 *)
  | Vmax => ok (if sx <? sy then sy else sx)             (* opi.cc:482-510 *)
  | Vsaddu => let sum := wrap b (x + y) in               (* opi.cc:739-787 *)
              Some (if sum <? y then (tmax false b, true) else (sum, false))
  | Vsadd => Some (vsadd_helper b sx sy)                 (* opi.cc:808-837 *)
  | Vssubu => Some (if x <? y then (0, true) else (wrap b (x - y), false)) (* opi.cc:840-887 *)
  | Vssub => Some (vssub_helper b sx sy)                 (* opi.cc:906-935 *)
  | Vadc => ok (x + y + Z.b2z m)                         (* opi.cc:938-970 *)
  | Vsbc => ok (x - y - Z.b2z m)                         (* opi.cc:1026-1058 *)
  | Vmerge => ok (if m then y else x)                    (* opi.cc:1098-1130 *)
  | Vssrl => ok (vssr_helper false b rm x y)             (* opi.cc:1185-1214 *)
  | Vssra => ok (vssr_helper true b rm sx sy)            (* opi.cc:1217-1246 *)
  | Vnclipu => Some (vnclip_helper false b (2 * b) rm x y)               (* opi.cc:1316-1353 *)
  | Vnclip => Some (vnclip_helper true b (2 * b) rm (sgn (2 * b) x) sy)  (* opi.cc:1278-1312 *)
  | Vsmul => Some (vsmul_helper b rm sx sy)              (* opi.cc:1377-1406 *)
  | Vaaddu => ok (vaadd_helper false b rm x y)           (* opm.cc:47-76 *)
  | Vaadd => ok (vaadd_helper true b rm sx sy)           (* opm.cc:80-109 *)
  | Vasubu => ok (vasub_helper false b rm x y)           (* opm.cc:123-152 *)
  | Vasub => ok (vasub_helper true b rm sx sy)           (* opm.cc:155-184 *)
  | Vdivu => ok (if y =? 0 then Z.lnot y else x / y)     (* opm.cc:280-313 *)
  | Vdiv => ok (if sy =? 0 then -1                       (* opm.cc:317-362 *)
                else if (sy =? -1) && (sx =? tmin true b) then tmin true b else Z.quot sx sy)
  | Vremu => ok (if y =? 0 then x else x mod y)          (* opm.cc:365-398 *)
  | Vrem =>                                              (* opm.cc:401-434; INT_MIN % -1 is undefined
                                                            when no promotion to a wider int happens *)
      if sy =? 0 then ok sx
      else if (sx =? - 2 ^ (b - 1)) && (sy =? -1) && (32 <=? b) then None else ok (Z.rem sx sy)
  | Vmulhu => ok (vmul_high false b x y)                 (* opm.cc:449-478 *)
  | Vmul => ok (x * y)                                   (* opm.cc:482-518 *)
  | Vmulhsu => ok (vmul_high_su b sx y)                  (* opm.cc:535-564 *)
  | Vmulh => ok (vmul_high true b sx sy)                 (* opm.cc:567-596 *)
  | Vmadd => ok (y * z + x)                              (* opm.cc:599-635 *)
  | Vnmsub => ok (- (y * z) + x)                         (* opm.cc:638-673 *)
  | Vmacc => ok (y * x + z)                              (* opm.cc:676-711 *)
  | Vnmsac => ok (- (y * x) + z)                         (* opm.cc:714-749 *)
  | Vwaddu => ok (x + y)                                 (* opm.cc:752-776 *)
  | Vwsubu => ok (x - y)                                 (* opm.cc:779-803 *)
  | Vwadd => ok (wrap (2 * b) sx + wrap (2 * b) sy)      (* opm.cc:806-843 *)
  | Vwsub => ok (wrap (2 * b) sx - wrap (2 * b) sy)      (* opm.cc:846-882 *)
  | Vwadduw => ok (x + y)                                (* opm.cc:885-916 *)
  | Vwsubuw => ok (x - y)                                (* opm.cc:919-950 *)
  | Vwaddw => ok (x + wrap (2 * b) sy)                   (* opm.cc:953-984 *)
  | Vwsubw => ok (x - wrap (2 * b) sy)                   (* opm.cc:987-1018 *)
  | Vwmulu => ok (wrap (2 * b) (x * y))                  (* opm.cc:1021-1062 *)
  | Vwmulsu => ok (wrap (2 * b) (sx * y))                (* opm.cc:1065-1109 *)
  | Vwmul => ok (sgn (2 * b) (sx * sy))                  (* opm.cc:1112-1143 *)
  | Vwmaccu => ok (vwmacc_helper b x y z)                (* opm.cc:1157-1191 *)
  | Vwmacc => ok (vwmacc_helper b sx sy z)               (* opm.cc:1194-1225 *)
  | Vwmaccus => ok (vwmacc_helper b sx y z)              (* opm.cc:1228-1261 *)
  | Vwmaccsu => ok (vwmacc_helper b x sy z)              (* opm.cc:1264-1297 *)
  | Vzext k => ok x                                      (* unary.cc:179-200, 226-244, 264-277 *)
  | Vsext k => ok (sgn (b / k) x)                        (* unary.cc:202-224, 245-262, 278-291 *)
  | Vandn => ok (Z.land x (Z.lnot y))                    (* basic_bit_manipulation.cc:64-89 *)
  | Vrol => ok (rotl b x (Z.land y (b - 1)))             (* basic_bit_manipulation.cc:162-195 *)
  | Vror => ok (rotr b x (Z.land y (b - 1)))             (* basic_bit_manipulation.cc:197-230 *)
  | Vwsll => ok (Z.shiftl x (Z.land y (2 * b - 1)))      (* basic_bit_manipulation.cc:342-366 *)
  | Vbrev8 => ok (brev8_loop (Z.to_nat (b / 8)) x)       (* basic_bit_manipulation.cc:91-134 *)
  | Vrev8 => ok (if b =? 8 then x else byte_swap (b / 8) (Z.to_nat (b / 8)) x) (* :136-160 *)
  | Vbrev => ok (bit_reverse b (Z.to_nat b) 0 x)         (* basic_bit_manipulation.cc:234-259 *)
  | Vclz => ok (countl_zero b x)                         (* basic_bit_manipulation.cc:261-286 *)
  | Vctz => ok (countr_zero b x)                         (* basic_bit_manipulation.cc:288-313 *)
  | Vcpopv => ok (popcount b x)                          (* basic_bit_manipulation.cc:315-340 *)
  end.

(** The template arguments (sizeof Vd, Vs2, Vs1) chosen by each instruction's switch on SEW, or None
    for its default case (same lines as above).  Unary instructions have no Vs1. *)
Definition sizes (o : vop) (sew : Z) : option (Z * Z * Z) :=
  match o with
  | Vnsrl | Vnsra | Vnclipu | Vnclip =>
      if existsb (Z.eqb sew) [1; 2; 4] then Some (sew, 2 * sew, sew) else None
  | Vwaddu | Vwsubu | Vwadd | Vwsub | Vwmulu | Vwmulsu | Vwmul | Vwmaccu | Vwmacc | Vwmaccus | Vwmaccsu
  | Vwsll => if existsb (Z.eqb sew) [1; 2; 4] then Some (2 * sew, sew, sew) else None
  | Vwadduw | Vwsubuw | Vwaddw | Vwsubw =>
      if existsb (Z.eqb sew) [1; 2; 4] then Some (2 * sew, 2 * sew, sew) else None
  | Vzext k | Vsext k =>
      if existsb (Z.eqb sew) (if k =? 2 then [2; 4; 8] else if k =? 4 then [4; 8] else if k =? 8 then [8] else [])
      then Some (sew, sew / k, sew) else None
  | _ => if existsb (Z.eqb sew) [1; 2; 4; 8] then Some (sew, sew, sew) else None
  end.
(** The instructions that first reject LMUL = 8 (e.g. opi.cc:321-325). *)
Definition lmul_check (o : vop) : bool :=
  match o with
  | Vnsrl | Vnsra | Vnclipu | Vnclip | Vwadd | Vwsub | Vwadduw | Vwsubuw | Vwaddw | Vwsubw
  | Vwmulu | Vwmulsu | Vwmul | Vwmaccu | Vwmacc | Vwmaccus | Vwmaccsu => true
  | _ => false end.
(** Which loop template is used: RiscVUnaryVectorOp, RiscVMaskBinaryVectorOp (directly),
    RiscVBinaryVectorOp, RiscVTernaryVectorOp. *)
Inductive shape := Unary | MaskBinary | Binary | Ternary.
(** As above. *)
Definition shape_of (o : vop) : shape :=
  match o with
  | Vzext _ | Vsext _ | Vbrev8 | Vrev8 | Vbrev | Vclz | Vctz | Vcpopv => Unary
  | Vadc | Vsbc | Vmerge => MaskBinary
  | Vmadd | Vnmsub | Vmacc | Vnmsac | Vwmaccu | Vwmacc | Vwmaccus | Vwmaccsu => Ternary
  | _ => Binary end.

(** Model only: the option monad's bind. *)
Definition obind {A B} (o : option A) (f : A -> option B) : option B := match o with Some a => f a | None => None end.

(** One iteration of the inner loops: riscv_vector_instruction_helpers.h:276-285 (unary), 426-449 and
    466-478 (binary; the element functions modelled here never raise a vector exception, so lines
    440-447 have no effect), 612-626 (ternary).  [m]: mask bit; result: the value stored, if any. *)
Definition iter (o : vop) (b rm vb wd w2 w1 vd vs2 : Z) (s1 : src) (m : bool) (rf : mem) (vi : Z)
  : option (option Z * bool) :=
  let run (x y z : Z) := obind (elem_op o b rm m x y z) (fun rs => Some (Some (wrap (8 * wd) (fst rs)), snd rs)) in
  match shape_of o with
  | Unary => if m then obind (read_elem vb rf vs2 w2 vi) (fun x => run x 0 0) else Some (None, false)
  | MaskBinary => obind (read_elem vb rf vs2 w2 vi) (fun x => obind (read_src1 vb rf w1 s1 vi) (fun y => run x y 0))
  | Binary => obind (read_elem vb rf vs2 w2 vi) (fun x => obind (read_src1 vb rf w1 s1 vi) (fun y =>
                if m then run x y 0 else Some (None, false)))
  | Ternary => obind (read_elem vb rf vs2 w2 vi) (fun x => obind (read_src1 vb rf w1 s1 vi) (fun y =>
                 obind (read_elem vb rf vd wd vi) (fun z => if m then run x y z else Some (None, false))))
  end.

(** The inner loop (lines 273-286, 424-450, 609-627): writes into the copied buffer [buf] while the
    register file [rf] is unchanged.  Model only: [fuel] bounds the iterations. *)
Fixpoint items (body : mem -> Z -> option (option Z * bool)) (wd : Z) (fuel : nat)
  (rf buf : mem) (i count vi n : Z) (sat : bool) : option (mem * Z * bool) :=
  match fuel with
  | O => Some (buf, vi, sat)
  | S f =>
    if (i <? count) && (vi <? n) then
      obind (body rf vi) (fun rs =>
        let buf' := match fst rs with Some v => store_le buf (i * wd) (Z.to_nat wd) v | None => buf end in
        items body wd f rf buf' (i + 1) count (vi + 1) n (sat || snd rs))
    else Some (buf, vi, sat)
  end.
(** riscv_register.cc CopyDataBuffer(i) (lines 200-209): a copy of register [r]. *)
Definition copy_reg (vb : Z) (rf : mem) (r : Z) : mem := fun k => rf (r * vb + k).
(** DataBuffer::Submit (mpact-sim) with latency 0: the buffer becomes register [r]. *)
Definition submit (vb : Z) (rf buf : mem) (r : Z) : mem :=
  fun a => if (r * vb <=? a) && (a <? (r + 1) * vb) then buf (a - r * vb) else rf a.
(** The outer loop (lines 264-291, 414-454, 600-632). *)
Fixpoint regs_loop (body : mem -> Z -> option (option Z * bool)) (vb wd vd epv max_regs n : Z) (fuel : nat)
  (rf : mem) (reg item vi : Z) (sat : bool) : option (mem * bool) :=
  match fuel with
  | O => Some (rf, sat)
  | S f =>
    if (reg <? max_regs) && (vi <? n) then
      obind (items body wd (Z.to_nat epv) rf (copy_reg vb rf (vd + reg)) item (Z.min epv n) vi n sat) (fun t =>
        let '(buf, vi', sat') := t in
        regs_loop body vb wd vd epv max_regs n f (submit vb rf buf (vd + reg)) (reg + 1) 0 vi' sat')
    else Some (rf, sat)
  end.

(** Model only: the state with the exception flag set. *)
Definition raise (st : vstate) : vstate := {| regs := regs st; cfg := set_vexc (cfg st) |}.
(** riscv_vector_instruction_helpers.h:232-296, 378-461, 568-636: checks, loops, clear_vstart; with the
    per-instruction prologue (LMUL check and switch on SEW).  The mask span is taken from v0 before
    the loops (lines 407-408). *)
Definition exec (st : vstate) (I : vinst) : option vstate :=
  let c := cfg st in
  let o := vi_op I in
  if lmul_check o && (32 <? lmul8 c) then Some (raise st) else
  match sizes o (sew c) with
  | None => Some (raise st)
  | Some (wd, w2, w1) =>
    if vexc c then Some st else
    let lmul_of w := Z.quot (lmul8 c * w) (sew c) in
    let ws := match shape_of o with Unary => [wd; w2] | _ => [wd; w2; w1] end in
    if existsb (fun w => 64 <? lmul_of w) ws || existsb (fun w => lmul_of w =? 0) ws then Some (raise st) else
    let vb := vlenb c in
    let n := vl c in
    let epv := vb / wd in
    let max_regs := (n + epv - 1) / epv in
    if num_regs (vi_vd I) <? max_regs then Some (raise st) else
    let body rf vi := iter o (8 * sew c) (vxrm c) vb wd w2 w1 (vi_vd I) (vi_vs2 I) (vi_src1 I)
                        (mask_value (regs st) (vi_vm I) vi) rf vi in
    let start := vstart c in
    obind (regs_loop body vb wd (vi_vd I) epv max_regs n (Z.to_nat max_regs)
             (regs st) (start / epv) (start mod epv) start (vxsat c)) (fun t =>
      Some {| regs := fst t; cfg := set_vstart (set_vxsat c (snd t)) 0 |})
  end.

(** riscv_vector.isa:467-791 (repeated at 1793-) and riscv_zvbb.isa:64, 98: the immediate operand of
    the .vi form; riscv_getters_vector.h:155-165, riscv_getters_zvbb.h:77-84: its value, which the
    operand interface returns for every element. *)
Definition imm_operand (o : vop) (raw : Z) : option Z :=
  match o with
  | Vadd | Vrsub | Vand | Vor | Vxor | Vadc | Vmerge | Vsaddu | Vsadd => Some (sgn 5 raw)   (* 467-680, simm5 *)
  | Vsll | Vsrl | Vsra => Some (sgn 5 raw)                                                  (* 701, 728, 737, simm5 *)
  | Vssrl | Vssra | Vnsrl | Vnsra | Vnclipu | Vnclip => Some (wrap 5 raw)                   (* 746-791, uimm5 *)
  | Vror => Some (wrap 6 raw)                                                               (* zvbb 64, uimm6 *)
  | Vwsll => Some (wrap 5 raw)                                                              (* zvbb 98, uimm5 *)
  | _ => None end.
(** Model only: executing the .vi form with immediate field [raw]. *)
Definition exec_vi (st : vstate) (o : vop) (vd vs2 raw : Z) (vm : bool) : option vstate :=
  match imm_operand o raw with
  | Some x => exec st {| vi_op := o; vi_vd := vd; vi_vs2 := vs2; vi_src1 := Scalar x; vi_vm := vm |}
  | None => None end.
