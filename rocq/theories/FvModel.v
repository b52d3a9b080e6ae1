(** Model of the element-wise vector floating-point instructions: /repo/riscv/riscv_vector_fp_instructions.cc,
    riscv_vector_fp_unary_instructions.cc, the templates of riscv_vector_instruction_helpers.h and the operand
    lists of riscv_vector.isa.  The host's arithmetic is a parameter (record [host] of FarithSpec). *)
From Coq Require Import ZArith Bool List.
From Verif Require Import Bits Memory IeeeSpec FpSpec FarithSpec IntModel FpModel FarithModel VelemSpec VelemModel VcfgModel FvSpec.
Import ListNotations.
Local Open Scope Z_scope.

(** Model only: the vector state, the floating-point registers (64 bits), frm and fflags. *)
Record fstate := { vs : vstate; fpr : Z -> Z; frm : Z; fflags : Z }.

(** The C++ type of SEW = [b] bits: float for 4 bytes, double for 8 (the switches on sew,
    riscv_vector_fp_instructions.cc:48-62 and alike). *)
Definition ctype (b : Z) : fmt := if b =? 64 then double else single.

(** ** Element functions *)

(** riscv_vector_fp_instructions.cc:733-756 MaxMinHelper. *)
Definition MaxMinHelper (f : fmt) (operation : Z -> Z -> Z) (vs2 vs1 : Z) : Z * Z :=
  let fl := flag (IsSNaN f vs1 || IsSNaN f vs2) in
  if IsNaN f vs2 && IsNaN f vs1 then (kCanonicalNaN f, fl)
  else if IsNaN f vs2 then (vs1, fl)
  else if IsNaN f vs1 then (vs2, fl)
  else if host_eq f vs2 0 && host_eq f vs1 0 then
    let one := Z.shiftl (bias f) (sw f) in
    let tmp2 := if SignBit f vs2 then neg f one else one in
    let tmp1 := if SignBit f vs1 then neg f one else one in
    (if host_eq f (operation tmp2 tmp1) tmp2 then vs2 else vs1, 0)
  else (operation vs2 vs1, fl).
(** riscv_vector_fp_instructions.cc:768-770, 777-779 (vfmin), 798-800, 807-809 (vfmax). *)
Definition min_op (f : fmt) (vs2 vs1 : Z) : Z := if host_lt f vs1 vs2 then vs1 else vs2.
(** Same lines. *)
Definition max_op (f : fmt) (vs2 vs1 : Z) : Z := if host_lt f vs2 vs1 then vs1 else vs2.

(** riscv_vector_fp_instructions.cc:664-730 Vfsgnj, Vfsgnjn, Vfsgnjx; the last combines the two parts with
    ^ for 64 bits (lines 722-725). *)
Definition sgnj (b : Z) (k : injection) (vs2 vs1 : Z) : Z :=
  let mag := Z.land vs2 (2 ^ (b - 1) - 1) in
  match k with
  | Copy => Z.lor mag (Z.land vs1 (2 ^ (b - 1)))
  | Negate => Z.lor mag (Z.land (wnot b vs1) (2 ^ (b - 1)))
  | Xor => let s := Z.land (Z.lxor vs1 vs2) (2 ^ (b - 1)) in if b =? 64 then Z.lxor mag s else Z.lor mag s end.

(** static_cast of a floating-point value to an integer type: truncation, undefined out of range
    (C++ [conv.fpint]; riscv_instruction_helpers.h:62, 72). *)
Definition static_cast_int (f : fmt) (sg : bool) (w x : Z) : option Z :=
  let t := Z.quot (units f x) (2 ^ quantum f) in
  if is_finite f x && (tmin sg w <=? t) && (t <=? tmax sg w) then Some t else None.
(** riscv_instruction_helpers.h:46-74 CvtHelper<From, To>; the constants kMax and kMin are converted by
    the compiler, rounding to nearest. *)
Definition CvtHelper (f : fmt) (sg : bool) (w x : Z) : option (Z * Z) :=
  let kMax := fst (ieee_of_int f 0 (tmax sg w)) in
  let kMin := fst (ieee_of_int f 0 (tmin sg w)) in
  if IsNaN f x then Some (tmax sg w, fNV)
  else if host_lt f kMax x then Some (tmax sg w, fNV)
  else if host_lt f x kMin then
    if negb sg && host_lt f (neg f (Z.shiftl (bias f) (sw f))) x then
      obind (static_cast_int f true w x) (fun signed_val =>
        if signed_val =? 0 then Some (0, fNX) else Some (tmin sg w, fNV))
    else Some (tmin sg w, fNV)
  else obind (static_cast_int f sg w x) (fun v => Some (v, 0)).

(** riscv_vector_fp_unary_instructions.cc:680-734 SqrtHelper and Vfsqrtv; the flags of the helper and those
    of the host are both recorded. *)
Definition SqrtHelper (H : host) (wide : bool) (f : fmt) (rm x : Z) : Z * Z :=
  if IsNaN f x || host_lt f x 0 then (kCanonicalNaN f, fNV)
  else if host_eq f x 0 then (x, 0)
  else sqrt_call H wide f rm x.

(** riscv_vector_fp_unary_instructions.cc:40-50 kRecipSqrtMantissaTable. *)
Definition kRecipSqrtMantissaTable : list Z :=
  [52; 51; 50; 48; 47; 46; 44; 43; 42; 41; 40; 39; 38; 36; 35;
   34; 33; 32; 31; 30; 30; 29; 28; 27; 26; 25; 24; 23; 23; 22;
   21; 20; 19; 19; 18; 17; 16; 16; 15; 14; 14; 13; 12; 12; 11;
   10; 10; 9; 9; 8; 7; 7; 6; 6; 5; 4; 4; 3; 3; 2;
   2; 1; 1; 0; 127; 125; 123; 121; 119; 118; 116; 114; 113; 111; 109;
   108; 106; 105; 103; 102; 100; 99; 97; 96; 95; 93; 92; 91; 20; 88;
   87; 86; 85; 84; 83; 82; 80; 79; 78; 77; 76; 75; 74; 73; 72;
   71; 70; 70; 69; 68; 67; 66; 65; 64; 63; 63; 62; 61; 60; 59;
   59; 58; 57; 56; 56; 55; 54; 53].
(** riscv_vector_fp_unary_instructions.cc:52-62 kRecipMantissaTable. *)
Definition kRecipMantissaTable : list Z :=
  [127; 125; 123; 121; 119; 117; 116; 114; 112; 110; 109; 107; 105; 104; 102;
   100; 99; 97; 96; 94; 93; 91; 90; 88; 87; 85; 84; 83; 81; 80;
   79; 77; 76; 75; 74; 72; 71; 70; 69; 68; 66; 65; 64; 63; 62;
   61; 60; 59; 58; 57; 56; 55; 54; 53; 52; 51; 50; 49; 48; 47;
   46; 45; 44; 43; 42; 41; 40; 40; 39; 38; 37; 36; 35; 35; 34;
   33; 32; 31; 31; 30; 29; 28; 28; 27; 26; 25; 25; 24; 23; 23;
   22; 21; 21; 20; 19; 19; 18; 17; 17; 16; 15; 15; 14; 14; 13;
   12; 12; 11; 11; 10; 9; 9; 8; 8; 7; 7; 6; 5; 5; 4;
   4; 3; 3; 2; 2; 1; 1; 0].

(** The normalising loops of RecipSqrt7 and Recip7 (riscv_vector_fp_unary_instructions.cc:744-752, 840-848): shift the mantissa left until its top bit
    is set.  Model only: [fuel]; the sw f iterations it allows suffice for every mantissa but 0, which
    does not occur here (RecipSqrt7's loop would not end). *)
Fixpoint normalize (f : fmt) (fuel : nat) (e man : Z) : Z * Z :=
  match fuel with
  | O => (e, man)
  | S k => if Z.land man (Z.shiftl 1 (sw f - 1)) =? 0 then normalize f k (e - 1) (wrap (width f) (Z.shiftl man 1)) else (e, man)
  end.
(** The exponent and the mantissa below the leading one, of a nonzero finite number (lines 739-756, 835-852). *)
Definition exp_mantissa (f : fmt) (x : Z) : Z * Z :=
  let e := Z.shiftr (Z.land x (kExpMask f)) (sw f) in
  let man := Z.land x (kSigMask f) in
  if e =? 0 then let (e', man') := normalize f (Z.to_nat (sw f)) e man in (e', wrap (width f) (Z.shiftl man' 1)) else (e, man).

(** riscv_vector_fp_unary_instructions.cc:737-766 RecipSqrt7. *)
Definition RecipSqrt7 (f : fmt) (x : Z) : Z :=
  let (e, man) := exp_mantissa f x in
  let index := Z.lor (Z.shiftl (Z.land e 1) 6) (Z.land (Z.shiftr man (sw f - 6)) 63) in
  let new_mantissa := Z.shiftl (nth (Z.to_nat index) kRecipSqrtMantissaTable 0) (sw f - 7) in
  let new_exponent := wrap (width f) (Z.quot (3 * bias f - 1 - e) 2) in
  Z.lor (wrap (width f) (Z.shiftl new_exponent (sw f))) new_mantissa.
(** riscv_vector_fp_unary_instructions.cc:769-804 RecipSqrt7Helper; quiet_NaN() is the canonical NaN. *)
Definition RecipSqrt7Helper (f : fmt) (x : Z) : Z * Z :=
  if IsInf f x then (if SignBit f x then kCanonicalNaN f else 0, fNV)
  else if IsNaN f x then (kCanonicalNaN f, fNV)
  else if host_eq f x 0 then (if SignBit f x then kNegInf f else kPosInf f, fDZ)
  else if SignBit f x then (kCanonicalNaN f, fNV)
  else (RecipSqrt7 f x, 0).

(** numeric_limits<T>::max() (standard library); lowest() is its negation. *)
Definition kMaxFinite (f : fmt) : Z := kExpMask f - 1.
(** riscv_vector_fp_unary_instructions.cc:833-894 Recip7; [rm]: the value of frm. *)
Definition Recip7 (f : fmt) (rm x : Z) : Z :=
  let (e, man) := exp_mantissa f x in
  let new_exponent := 2 * bias f - 1 - e in
  if 2 * bias f <? new_exponent then
    match rm with
    | 2 => if SignBit f x then kNegInf f else kMaxFinite f
    | 1 => if SignBit f x then neg f (kMaxFinite f) else kMaxFinite f
    | 4 | 0 => if SignBit f x then kNegInf f else kPosInf f
    | 3 => if SignBit f x then neg f (kMaxFinite f) else kPosInf f
    | _ => kCanonicalNaN f end
  else
    let index := Z.land (Z.shiftr man (sw f - 7)) 127 in
    let new_mantissa := Z.shiftl (nth (Z.to_nat index) kRecipMantissaTable 0) (sw f - 7) in
    let (new_exponent, new_mantissa) :=
      if new_exponent <=? 0 then
        let m1 := Z.lor (Z.shiftr new_mantissa 1) 64 in
        if new_exponent <? 0 then (0, Z.land (Z.shiftr m1 1) 127) else (new_exponent, Z.land m1 127)
      else (new_exponent, new_mantissa) in
    let v := Z.lor (wrap (width f) (Z.shiftl new_exponent (sw f))) new_mantissa in
    if host_lt f x 0 then neg f v else v.
(** riscv_vector_fp_unary_instructions.cc:897-916 Recip7Helper: no flags. *)
Definition Recip7Helper (f : fmt) (rm x : Z) : Z :=
  if IsInf f x then (if SignBit f x then neg f 0 else 0)
  else if IsNaN f x then kCanonicalNaN f
  else if host_eq f x 0 then (if SignBit f x then kNegInf f else kPosInf f)
  else Recip7 f rm x.

(** Vfncvtrodffw's lambda (riscv_vector_fp_unary_instructions.cc:562-580): no ScopedFPStatus, so the conversion rounds to nearest, the host's
    default, and its flags are lost. *)
Definition narrow_rod (H : host) (x : Z) : Z :=
  if IsNaN double x || IsInf double x then fst (h_cvt H double single 0 x)
  else
    let bit := if Z.land (Z.shiftl 1 (sw double - sw single) - 1) x =? 0 then 0 else 1 in
    let res := fst (h_cvt H double single 0 x) in
    if IsInf single res then res else Z.lor res bit.

(** Model only: two host operations in sequence, with the flags of both. *)
Definition then_ (r : Z * Z) (k : Z -> Z * Z) : Z * Z := let (v, fl) := k (fst r) in (v, Z.lor (snd r) fl).
(** double vs_d = vs (riscv_vector_fp_instructions.cc:131-132 and alike). *)
Definition to_double (H : host) (rm x : Z) : Z * Z := h_cvt H single double rm x.

(** The lambdas of the instructions: riscv_vector_fp_instructions.cc:38-661 (arithmetic), 664-838 (the rest),
    riscv_vector_fp_unary_instructions.cc:160-677 (conversions), 696-960 (the functions above).  [frm]: the CSR; arithmetic uses
    the host mode it selects.  Undefined behaviour: None. *)
Definition elem_fn (H : host) (wide : bool) (o : fvop) (b frm : Z) (m : bool) (x y z : Z) : option (Z * Z) :=
  let f := ctype b in
  let rm := host_rm frm in
  let wide2 op := then_ (to_double H rm x) (fun x => then_ (to_double H rm y) (fun y => op x y)) in
  match o with
  | Vfadd => Some (h_add H f rm x y)
  | Vfsub => Some (h_sub H f rm x y)
  | Vfrsub => Some (h_sub H f rm y x)
  | Vfmul => Some (h_mul H f rm x y)
  | Vfdiv => Some (h_div H f rm x y)
  | Vfrdiv => Some (h_div H f rm y x)
  | Vfsqrt => Some (SqrtHelper H wide f rm x)
  | Vfmadd => Some (h_fma H f rm y z x)
  | Vfnmadd => Some (h_fma H f rm (neg f y) z (neg f x))
  | Vfmsub => Some (h_fma H f rm y z (neg f x))
  | Vfnmsub => Some (h_fma H f rm (neg f y) z x)
  | Vfmacc => Some (h_fma H f rm y x z)
  | Vfnmacc => Some (h_fma H f rm (neg f y) x (neg f z))
  | Vfmsac => Some (h_fma H f rm y x (neg f z))
  | Vfnmsac => Some (h_fma H f rm (neg f y) x z)
  | Vfwadd => Some (wide2 (fun x y => h_add H double rm x y))
  | Vfwsub => Some (wide2 (fun x y => h_sub H double rm x y))
  | Vfwaddw => Some (then_ (to_double H rm y) (fun y => h_add H double rm x y))
  | Vfwsubw => Some (then_ (to_double H rm y) (fun y => h_sub H double rm x y))
  | Vfwmul => Some (wide2 (fun x y => h_mul H double rm x y))
  | Vfwmacc => Some (wide2 (fun x y => then_ (h_mul H double rm y x) (fun p => h_add H double rm p z)))
  | Vfwnmacc => Some (wide2 (fun x y => then_ (h_mul H double rm y x) (fun p => h_sub H double rm (neg double p) z)))
  | Vfwmsac => Some (wide2 (fun x y => then_ (h_mul H double rm y x) (fun p => h_sub H double rm p z)))
  | Vfwnmsac => Some (wide2 (fun x y => then_ (h_mul H double rm y x) (fun p => h_add H double rm (neg double p) z)))
  | Vfmin => Some (MaxMinHelper f (min_op f) x y)
  | Vfmax => Some (MaxMinHelper f (max_op f) x y)
  | Vfsgnj k => Some (sgnj b k x y, 0)
  | Vfclass => Some (ClassifyFP f x, 0)
  | Vfmerge => Some (if m then y else x, 0)
  | Vfrsqrt7 => Some (RecipSqrt7Helper f x)
  | Vfrec7 => Some (Recip7Helper f frm x, 0)
  | VfcvtXF _ sg => CvtHelper f sg b x
  | VfwcvtXF _ sg => CvtHelper f sg (2 * b) x
  | VfncvtXF _ sg => CvtHelper (ctype (2 * b)) sg b x
  | VfcvtFX sg => Some (h_int H f rm (int_arg sg b x))
  | VfwcvtFX sg => Some (h_int H (ctype (2 * b)) rm (int_arg sg b x))
  | VfncvtFX sg => Some (h_int H f rm (int_arg sg (2 * b) x))
  | VfwcvtFF => Some (fst (h_cvt H single double 0 x), 0)
  | VfncvtFF => Some (h_cvt H double single rm x)
  | VfncvtRod => Some (narrow_rod H x, 0) end.

(** ** Instructions *)

(** The switches on sew and the template arguments <Vd, Vs2, Vs1> (same lines): sizes in bytes; None: the default case. *)
Definition fsizes (o : fvop) (sew : Z) : option (Z * Z * Z) :=
  match o with
  | Vfwadd | Vfwsub | Vfwmul | Vfwmacc | Vfwnmacc | Vfwmsac | Vfwnmsac | VfwcvtXF _ _ | VfwcvtFF =>
      if sew =? 4 then Some (8, 4, 4) else None
  | Vfwaddw | Vfwsubw => if sew =? 4 then Some (8, 8, 4) else None
  | VfncvtFX _ | VfncvtFF | VfncvtRod => if sew =? 4 then Some (4, 8, 4) else None
  | VfwcvtFX _ => if sew =? 2 then Some (4, 2, 2) else if sew =? 4 then Some (8, 4, 4) else None
  | VfncvtXF _ _ => if sew =? 2 then Some (2, 4, 2) else if sew =? 4 then Some (4, 8, 4) else None
  | _ => if sew =? 4 then Some (4, 4, 4) else if sew =? 8 then Some (8, 8, 8) else None end.

(** The template each uses (same lines; RiscVUnaryVectorOp and RiscVUnaryVectorOpWithFflags have the same loops, so do
    RiscVBinaryVectorOp and RiscVBinaryVectorOpWithFflags). *)
Definition fshape (o : fvop) : shape :=
  match o with
  | Vfsqrt | Vfclass | Vfrsqrt7 | Vfrec7 | VfcvtXF _ _ | VfwcvtXF _ _ | VfncvtXF _ _ | VfcvtFX _ | VfwcvtFX _
  | VfncvtFX _ | VfwcvtFF | VfncvtFF | VfncvtRod => Unary
  | Vfmerge => MaskBinary
  | Vfmadd | Vfnmadd | Vfmsub | Vfnmsub | Vfmacc | Vfnmacc | Vfmsac | Vfnmsac | Vfwmacc | Vfwnmacc | Vfwmsac | Vfwnmsac => Ternary
  | _ => Binary end.

(** The functions that begin with the test of rounding_mode_valid() (same lines). *)
Definition checks_rm (o : fvop) : bool :=
  match o with
  | Vfmin | Vfmax | Vfsgnj _ | Vfclass | Vfmerge | Vfrsqrt7 | Vfrec7 | VfwcvtFF => false
  | VfcvtXF rtz _ | VfwcvtXF rtz _ | VfncvtXF rtz _ => negb rtz
  | _ => true end.
(** RiscVFPState::SetRoundingMode (riscv_fp_state.cc:74-95): the modes that are valid. *)
Definition rounding_mode_valid (frm : Z) : bool := (0 <=? frm) && (frm <=? 4).

(** riscv_vector.isa:1226-1237: vfwadd.w and vfwsub.w name the semantic functions Vfwadd and Vfwsub. *)
Definition fv_semfunc (o : fvop) : fvop := match o with Vfwaddw => Vfwadd | Vfwsubw => Vfwsub | _ => o end.
(** Source operand 1: a vector register or, in the .vf forms, fs1, whose low bits are read (GetInstructionSource
    of the element type).  riscv_vector.isa:1110: vfmerge.vf declares vs1. *)
Definition operand1 (fpr : Z -> Z) (o : fvop) (s : fsrc) : src :=
  match s with
  | FV r => Vec r
  | FS r => match o with Vfmerge => Vec r | _ => Scalar (fpr r) end end.

(** One iteration of the inner loops: riscv_vector_instruction_helpers.h:272-286, 344-362 (unary), 424-450, 530-552
    (binary), 609-627 (ternary). *)
Definition fiter (H : host) (wide : bool) (o : fvop) (b frm vb wd w2 w1 vd vs2 : Z) (s1 : src) (m : bool) (rf : mem) (vi : Z)
  : option (option Z * Z) :=
  let run (x y z : Z) := obind (elem_fn H wide o b frm m x y z) (fun rs => Some (Some (wrap (8 * wd) (fst rs)), snd rs)) in
  match fshape o with
  | Unary => if m then obind (read_elem vb rf vs2 w2 vi) (fun x => run x 0 0) else Some (None, 0)
  | MaskBinary => obind (read_elem vb rf vs2 w2 vi) (fun x => obind (read_src1 vb rf w1 s1 vi) (fun y => run x y 0))
  | Binary => obind (read_elem vb rf vs2 w2 vi) (fun x => obind (read_src1 vb rf w1 s1 vi) (fun y =>
                if m then run x y 0 else Some (None, 0)))
  | Ternary => obind (read_elem vb rf vs2 w2 vi) (fun x => obind (read_src1 vb rf w1 s1 vi) (fun y =>
                 obind (read_elem vb rf vd wd vi) (fun z => if m then run x y z else Some (None, 0))))
  end.

(** The inner loops (same lines); [fl] collects the flags.  Simplified: the flags are collected in fflags
    directly, while the code ORs those of the host (ScopedFPStatus) and its own variable into it afterwards.
    Model only: [fuel]. *)
Fixpoint fitems (body : mem -> Z -> option (option Z * Z)) (wd : Z) (fuel : nat)
  (rf buf : mem) (i count vi n : Z) (fl : Z) : option (mem * Z * Z) :=
  match fuel with
  | O => Some (buf, vi, fl)
  | S f =>
    if (i <? count) && (vi <? n) then
      obind (body rf vi) (fun rs =>
        let buf' := match fst rs with Some v => store_le buf (i * wd) (Z.to_nat wd) v | None => buf end in
        fitems body wd f rf buf' (i + 1) count (vi + 1) n (Z.lor fl (snd rs)))
    else Some (buf, vi, fl)
  end.
(** The outer loops (lines 263-292, 335-366, 412-455, 519-556, 600-632). *)
Fixpoint fregs_loop (body : mem -> Z -> option (option Z * Z)) (vb wd vd epv max_regs n : Z) (fuel : nat)
  (rf : mem) (reg item vi : Z) (fl : Z) : option (mem * Z) :=
  match fuel with
  | O => Some (rf, fl)
  | S f =>
    if (reg <? max_regs) && (vi <? n) then
      obind (fitems body wd (Z.to_nat epv) rf (copy_reg vb rf (vd + reg)) item (Z.min epv n) vi n fl) (fun t =>
        let '(buf, vi', fl') := t in
        fregs_loop body vb wd vd epv max_regs n f (submit vb rf buf (vd + reg)) (reg + 1) 0 vi' fl')
    else Some (rf, fl)
  end.

(** Model only: the state with the exception flag set. *)
Definition fraise (st : fstate) : fstate := {| vs := raise (vs st); fpr := fpr st; frm := frm st; fflags := fflags st |}.
(** The prologues of the semantic functions and the templates (riscv_vector_instruction_helpers.h:231-298, 302-375,
    380-478, 480-563, 569-636). *)
Definition fexec (H : host) (wide : bool) (st : fstate) (I : fvinst) : option fstate :=
  let c := cfg (vs st) in
  let o := fv_semfunc (fi_op I) in
  if checks_rm o && negb (rounding_mode_valid (frm st)) then Some (fraise st) else
  match fsizes o (sew c) with
  | None => Some (fraise st)
  | Some (wd, w2, w1) =>
    if vexc c then Some st else
    let lmul_of w := Z.quot (lmul8 c * w) (sew c) in
    let ws := match fshape o with Unary => [wd; w2] | _ => [wd; w2; w1] end in
    if existsb (fun w => 64 <? lmul_of w) ws || existsb (fun w => lmul_of w =? 0) ws then Some (fraise st) else
    let vb := vlenb c in
    let n := vl c in
    let epv := vb / wd in
    let max_regs := (n + epv - 1) / epv in
    if num_regs (fi_vd I) <? max_regs then Some (fraise st) else
    let body rf vi := fiter H wide o (8 * sew c) (frm st) vb wd w2 w1 (fi_vd I) (fi_vs2 I) (operand1 (fpr st) o (fi_src1 I))
                        (mask_value (regs (vs st)) (fi_vm I) vi) rf vi in
    let start := vstart c in
    obind (fregs_loop body vb wd (fi_vd I) epv max_regs n (Z.to_nat max_regs)
             (regs (vs st)) (start / epv) (start mod epv) start (fflags st)) (fun t =>
      Some {| vs := {| regs := fst t; cfg := set_vstart c 0 |}; fpr := fpr st; frm := frm st; fflags := snd t |})
  end.
