(** Model of the floating-point instructions without a rounded floating-point result:
    /repo/riscv/riscv_instruction_helpers.h, riscv_f_instructions.cc, riscv_d_instructions.cc,
    riscv_zfh_instructions.cc and the operand lists of riscv32g.isa, riscv64g.isa, riscv_zfh.isa.
    Registers are bit patterns; fp registers have 64 bits (riscv_register.h: RVFpRegister is
    RV64Register).  Host comparisons of floats (a < b etc.) and the host's float to double conversion
    are those of IEEE 754 (trusted).  FPTypeInfo is part of mpact-sim, outside the repository: its
    constants and bit tests are written out here with the values their names say. *)
From Coq Require Import ZArith Bool List.
From Verif Require Import Bits IeeeSpec FpSpec IntModel.
Import ListNotations.
Local Open Scope Z_scope.

(** Model only: an instruction either returns early without writing anything, or writes its
    destination register and raises flags.  The enclosing [option]: None is undefined behaviour. *)
Inductive outcome := Nothing | Wrote (d fl : Z).

(** ** FPTypeInfo (mpact-sim; used throughout riscv_instruction_helpers.h:80-130) *)

(** FPTypeInfo<T>::kExpMask, kSigMask, kCanonicalNaN, kPosInf, kNegInf as named. *)
Definition kExpMask (f : fmt) : Z := Z.shiftl (2 ^ ew f - 1) (sw f).
(** riscv_instruction_helpers.h:85. *)
Definition kSigMask (f : fmt) : Z := 2 ^ sw f - 1.
(** riscv_instruction_helpers.h:296. *)
Definition kCanonicalNaN (f : fmt) : Z := Z.lor (kExpMask f) (Z.shiftl 1 (sw f - 1)).
(** riscv_instruction_helpers.h:98. *)
Definition kPosInf (f : fmt) : Z := kExpMask f.
(** riscv_instruction_helpers.h:101. *)
Definition kNegInf (f : fmt) : Z := Z.lor (Z.shiftl 1 (width f - 1)) (kExpMask f).
(** FPTypeInfo<T>::IsNaN (riscv_instruction_helpers.h:98). *)
Definition IsNaN (f : fmt) (x : Z) : bool :=
  (Z.land x (kExpMask f) =? kExpMask f) && negb (Z.land x (kSigMask f) =? 0).
(** FPTypeInfo<T>::IsSNaN (riscv_f_instructions.cc:90): the top fraction bit is clear. *)
Definition IsSNaN (f : fmt) (x : Z) : bool := IsNaN f x && negb (Z.testbit x (sw f - 1)).
(** FPTypeInfo<HalfFP>::IsInf (riscv_zfh_instructions.cc:102). *)
Definition IsInf (f : fmt) (x : Z) : bool :=
  (Z.land x (kExpMask f) =? kExpMask f) && (Z.land x (kSigMask f) =? 0).
(** FPTypeInfo<T>::SignBit, std::signbit (riscv_zfh_instructions.cc:116, riscv_f_instructions.cc:242). *)
Definition SignBit (f : fmt) (x : Z) : bool := Z.testbit x (width f - 1).

(** Host comparisons on float, double (riscv_f_instructions.cc:95, 111, 127): false on NaN. *)
Definition host_eq (f : fmt) (a b : Z) : bool := negb (is_nan f a) && negb (is_nan f b) && (units f a =? units f b).
(** riscv_f_instructions.cc:111. *)
Definition host_lt (f : fmt) (a b : Z) : bool := negb (is_nan f a) && negb (is_nan f b) && (units f a <? units f b).
(** riscv_f_instructions.cc:127. *)
Definition host_le (f : fmt) (a b : Z) : bool := negb (is_nan f a) && negb (is_nan f b) && (units f a <=? units f b).

(** ** Operands and results *)

(** generic::GetInstructionSource<T>(instruction, i): the low bits of source operand i
    (riscv_instruction_helpers.h:82).  Indexing past the operands is undefined. *)
Definition get (s : list Z) (i : nat) (w : Z) : option Z := option_map (wrap w) (nth_error s i).

(** GetNaNBoxedSource (riscv_instruction_helpers.h:284-300); [canon]: the canonical NaN of Argument. *)
Definition boxed_source (regw w canon : Z) (s : list Z) (i : nat) : option Z :=
  if regw <=? w then get s i w
  else bind (get s i regw) (fun uval =>
    let mask := wrap regw (Z.shiftl (2 ^ regw - 1) w) in
    if negb (Z.land mask uval =? mask) then Some canon else get s i w).

(** data_buffer()->Set<Result>(0, v): only the low bits of the buffer change
    (riscv_instruction_helpers.h:339). *)
Definition set_low (w old v : Z) : Z := Z.shiftl (Z.shiftr old w) w + wrap w v.

(** The boxing of a result (riscv_instruction_helpers.h:438-453 and the copies in 468-480, 517-529,
    633-645, 680-692): the shift is the number of *missing* bits. *)
Definition nanbox (regw resw old v : Z) : Z :=
  if resw <? regw then Z.lor (wrap regw (Z.shiftl (2 ^ regw - 1) (regw - resw))) v
  else set_low resw old v.
(** The boxing with shift 8 * sizeof(Result) (riscv_zfh_instructions.cc:335-347, 518-525; flw and flh
    child instructions, riscv_f_instructions.cc:148-156, riscv_zfh_instructions.cc:742-750). *)
Definition nanbox_z (regw resw old v : Z) : Z :=
  if resw <? regw then Z.lor (wrap regw (Z.shiftl (2 ^ regw - 1) resw)) v
  else set_low resw old v.

(** The rounding mode of an instruction (riscv_instruction_helpers.h:490-501): rm 7 takes frm;
    [dyn]: the mode frm holds, None when it is illegal. *)
Definition resolve (dyn : option Z) (rm : Z) : option Z := if rm =? 7 then dyn else Some rm.

(** RiscVBinaryNaNBoxOp (riscv_instruction_helpers.h:432-454). *)
Definition binary_nanbox (regw resw argw canon : Z) (op : Z -> Z -> Z * Z) (s : list Z) (old : Z) : option outcome :=
  bind (boxed_source regw argw canon s 0) (fun lhs =>
  bind (boxed_source regw argw canon s 1) (fun rhs =>
  let (v, fl) := op lhs rhs in Some (Wrote (nanbox regw resw old v) fl))).
(** RiscVUnaryNaNBoxOp (riscv_instruction_helpers.h:457-481). *)
Definition unary_nanbox (dstw srcw resw argw canon : Z) (op : Z -> Z * Z) (s : list Z) (old : Z) : option outcome :=
  bind (boxed_source srcw argw canon s 0) (fun lhs =>
  let (v, fl) := op lhs in Some (Wrote (nanbox dstw resw old v) fl)).
(** RiscVBinaryOp (riscv_instruction_helpers.h:303-315). *)
Definition binary_op (resw argw : Z) (op : Z -> Z -> Z * Z) (s : list Z) (old : Z) : option outcome :=
  bind (get s 0 argw) (fun lhs =>
  bind (get s 1 argw) (fun rhs =>
  let (v, fl) := op lhs rhs in Some (Wrote (set_low resw old v) fl))).
(** RiscVUnaryOp (riscv_instruction_helpers.h:329-339). *)
Definition unary_op (resw argw : Z) (op : Z -> Z) (s : list Z) (old : Z) : option outcome :=
  bind (get s 0 argw) (fun lhs => Some (Wrote (set_low resw old (op lhs)) 0)).
(** RiscVUnaryFloatOp (riscv_instruction_helpers.h:536-562); the operation returns the flags the host
    raised. *)
Definition unary_float_op (dyn : option Z) (resw argw : Z) (op : Z -> Z -> Z * Z) (s : list Z) (old : Z) : option outcome :=
  bind (get s 0 argw) (fun lhs =>
  bind (get s 1 32) (fun rm =>
  match resolve dyn rm with
  | None => Some Nothing
  | Some rm => let (v, fl) := op rm lhs in Some (Wrote (set_low resw old v) fl) end)).
(** RiscVBinaryFloatNaNBoxOp (riscv_instruction_helpers.h:605-646). *)
Definition binary_float_nanbox (dyn : option Z) (f : fmt) (op : Z -> Z -> Z -> Z * Z) (s : list Z) (old : Z) : option outcome :=
  bind (boxed_source 64 (width f) (kCanonicalNaN f) s 0) (fun lhs =>
  bind (boxed_source 64 (width f) (kCanonicalNaN f) s 1) (fun rhs =>
  bind (get s 2 32) (fun rm =>
  match resolve dyn rm with
  | None => Some Nothing
  | Some rm =>
      let (v, fl) := op rm lhs rhs in
      let v := if IsNaN f v then kCanonicalNaN f else v in
      Some (Wrote (nanbox 64 (width f) old v) fl) end))).

(** ** Semantic functions *)

(** The flag lambdas: kInvalidOp is written to fflags (riscv_f_instructions.cc:90-94, 106-110). *)
Definition flag (b : bool) : Z := if b then fNV else 0.

(** RVFCmpeq (riscv_f_instructions.cc:85-97), RiscVDCmpeq (riscv_d_instructions.cc:387-397, 465-475). *)
Definition op_eq (f : fmt) (a b : Z) : Z * Z := (Z.b2z (host_eq f a b), flag (IsSNaN f a || IsSNaN f b)).
(** RVFCmplt (riscv_f_instructions.cc:101-113), RiscVDCmplt (riscv_d_instructions.cc:400-410, 478-488). *)
Definition op_lt (f : fmt) (a b : Z) : Z * Z := (Z.b2z (host_lt f a b), flag (IsNaN f a || IsNaN f b)).
(** RVFCmple (riscv_f_instructions.cc:117-129), RiscVDCmple (riscv_d_instructions.cc:413-423, 491-501). *)
Definition op_le (f : fmt) (a b : Z) : Z * Z := (Z.b2z (host_le f a b), flag (IsNaN f a || IsNaN f b)).

(** RiscVFMin (riscv_f_instructions.cc:222-245), RiscVDMin (riscv_d_instructions.cc:125-145). *)
Definition op_min (f : fmt) (a b : Z) : Z * Z :=
  (if IsNaN f a then if IsNaN f b then kCanonicalNaN f else b
   else if IsNaN f b then a
   else if host_eq f a 0 && host_eq f b 0 then if SignBit f a then a else b
   else if host_lt f b a then b else a,
   flag (IsSNaN f a || IsSNaN f b)).
(** RiscVFMax (riscv_f_instructions.cc:248-269). *)
Definition op_max_s (f : fmt) (a b : Z) : Z * Z :=
  (if IsNaN f a then if IsNaN f b then kCanonicalNaN f else b
   else if IsNaN f b then a
   else if host_eq f a 0 && host_eq f b 0 then if SignBit f b then a else b
   else if host_lt f a b then b else a,
   flag (IsSNaN f a || IsSNaN f b)).
(** RiscVDMax (riscv_d_instructions.cc:148-168): the zero case is written the other way round. *)
Definition op_max_d (f : fmt) (a b : Z) : Z * Z :=
  (if IsNaN f a then if IsNaN f b then kCanonicalNaN f else b
   else if IsNaN f b then a
   else if host_eq f a 0 && host_eq f b 0 then if SignBit f a then b else a
   else if host_lt f a b then b else a,
   flag (IsSNaN f a || IsSNaN f b)).

(** RiscVFSgnj/n/x (riscv_f_instructions.cc:331-352), RiscVDSgnj/n/x (riscv_d_instructions.cc:334-355),
    RiscVZfhFsgnj/n/x (riscv_zfh_instructions.cc:854-886): masks of all bits but the sign, and of the
    sign. *)
Definition op_sgnj (f : fmt) (k : injection) (a b : Z) : Z :=
  let mask := 2 ^ (width f - 1) - 1 in
  let smask := 2 ^ (width f - 1) in
  Z.lor (Z.land a mask)
    (match k with
     | Copy => Z.land b smask
     | Negate => Z.land (wnot (width f) b) smask
     | Xor => Z.land (Z.lxor a b) smask end).

(** ClassifyFP (riscv_instruction_helpers.h:698-727). *)
Definition ClassifyFP (f : fmt) (val : Z) : Z :=
  let sign := negb (Z.shiftr val (width f - 1) =? 0) in
  let exp_mask := Z.shiftl 1 (ew f) - 1 in
  let exp := Z.land (Z.shiftr val (sw f)) exp_mask in
  let sig := Z.land val (Z.shiftl 1 (sw f) - 1) in
  if exp =? 0 then
    if sig =? 0 then if sign then Z.shiftl 1 3 else Z.shiftl 1 4
    else if sign then Z.shiftl 1 2 else Z.shiftl 1 5
  else if exp =? exp_mask then
    if sig =? 0 then if sign then 1 else Z.shiftl 1 7
    else if negb (Z.shiftr sig (sw f - 1) =? 0) then Z.shiftl 1 9 else Z.shiftl 1 8
  else if sign then Z.shiftl 1 1 else Z.shiftl 1 6.

(** ConvertFromHalfFP<T> (riscv_zfh_instructions.cc:89-139): pattern and flags; UIntType has [width g]
    bits. *)
Definition from_half (g : fmt) (in_int : Z) : Z * Z :=
  let W := width g in
  if IsNaN half in_int then (kCanonicalNaN g, flag (IsSNaN half in_int))
  else if IsInf half in_int then
    (Z.lor (kPosInf g) (wrap W (Z.shiftl (Z.shiftr in_int (width half - 1)) (W - 1))), 0)
  else if (in_int =? 0) || (in_int =? Z.shiftl 1 (width half - 1)) then
    (wrap W (Z.shiftl in_int (W - width half)), 0)
  else
    let in_sign := Z.b2z (SignBit half in_int) in
    let in_exp := Z.shiftr (Z.land in_int (kExpMask half)) (sw half) in
    let in_sig := Z.land in_int (kSigMask half) in
    let '(in_exp, out_sig) :=
      if (in_exp =? 0) && negb (in_sig =? 0) then
        (* digits - countl_zero(x) is the bit length of x. *)
        let shift_count := 1 + sw half - (Z.log2 in_sig + 1) in
        (wrap W (1 - shift_count), Z.land (wrap W (Z.shiftl in_sig shift_count)) (kSigMask half))
      else (in_exp, in_sig) in
    (Z.lor (Z.lor (wrap W (Z.shiftl in_sign (W - 1)))
                  (wrap W (Z.shiftl (wrap W (in_exp + bias g - bias half)) (sw g))))
           (wrap W (Z.shiftl out_sig (sw g - sw half))), 0).

(** RiscVZfhCvtHelper<float or double, HalfFP> (riscv_zfh_instructions.cc:294-348, 754-759, 770-775).
    The rounding mode only selects the host's mode, which the integer code of ConvertFromHalfFP does
    not use. *)
Definition zfh_widen (dyn : option Z) (g : fmt) (s : list Z) (old : Z) : option outcome :=
  bind (boxed_source 64 (width half) (kCanonicalNaN half) s 0) (fun lhs =>
  bind (get s 1 32) (fun rm =>
  match resolve dyn rm with
  | None => Some Nothing
  | Some _ =>
      let fl := flag (IsSNaN half lhs) in
      let (v, fl2) := from_half g lhs in
      Some (Wrote (nanbox_z 64 (width g) old v) (Z.lor fl fl2)) end)).

(** RiscVZfhFcmpeqHelper (riscv_zfh_instructions.cc:529-549): compares after conversion to float. *)
Definition zfh_eq (xl : Z) (s : list Z) (old : Z) : option outcome :=
  bind (boxed_source 64 (width half) (kCanonicalNaN half) s 0) (fun lhs =>
  bind (boxed_source 64 (width half) (kCanonicalNaN half) s 1) (fun rhs =>
  let (lf, f1) := from_half single lhs in
  let (rf, f2) := from_half single rhs in
  Some (Wrote (set_low xl old (Z.b2z (host_eq single lf rf))) (Z.land (Z.lor f1 f2) fNV)))).
(** RiscVZfhFcmpltHelper, RiscVZfhFcmpleHelper (riscv_zfh_instructions.cc:552-599). *)
Definition zfh_rel (rel : fmt -> Z -> Z -> bool) (xl : Z) (s : list Z) (old : Z) : option outcome :=
  bind (boxed_source 64 (width half) (kCanonicalNaN half) s 0) (fun lhs =>
  bind (boxed_source 64 (width half) (kCanonicalNaN half) s 1) (fun rhs =>
  let (lf, _) := from_half single lhs in
  let (rf, _) := from_half single rhs in
  Some (Wrote (set_low xl old (Z.b2z (rel single lf rf))) (flag (is_nan single lf || is_nan single rf))))).

(** RiscVZfhFMvxhHelper's lambda (riscv_zfh_instructions.cc:494-504). *)
Definition op_mvxh (xl : Z) (a : Z) : Z :=
  if SignBit half a then Z.lor (wrap xl (Z.shiftl (2 ^ xl - 1) 16)) a else a.

(** DCvtDs's lambda (riscv_d_instructions.cc:322-331): the NaN test is a bit test and raises nothing. *)
Definition op_cvt_ds (rm a : Z) : Z * Z :=
  if IsNaN single a then (kCanonicalNaN double, 0) else ieee_cvt single double rm a.

(** RVLoadChild<Register, ValueType> with a signed value (riscv_instruction_helpers.h:393-409). *)
Definition load_child (regw w old v : Z) : Z := set_low regw old (sgn w v).

(** ** RiscVConvertFloatWithFflagsOp (riscv_instruction_helpers.h:76-281) *)

(** numeric_limits<To>::max() and min() (77-78). *)
Definition kMax (sg : bool) (w : Z) : Z := if sg then 2 ^ (w - 1) - 1 else 2 ^ w - 1.
(** numeric_limits<To>::min() (riscv_instruction_helpers.h:79). *)
Definition kMin (sg : bool) (w : Z) : Z := if sg then - 2 ^ (w - 1) else 0.

(** The shift loop (237-249): doubling in uint64_t until [n] shifts are done or a bit is lost, which
    sets the invalid flag and a limit of To, converted to uint64_t. *)
Fixpoint shift_loop (n : nat) (limit prev fl : Z) : Z * Z :=
  match n with
  | O => (prev, fl)
  | S n' =>
      let u := wrap 64 (Z.shiftl prev 1) in
      if u <? prev then (wrap 64 limit, fNV) else shift_loop n' limit u fl
  end.

(** The rounding switch (167-222); None: invalid mode, the function returns.  [base] is uint64_t. *)
Definition round_base (rm : Z) (sign : bool) (base : Z) (comp : bool) (fl : Z) : option (Z * Z) :=
  let low := Z.testbit base 0 in
  match rm with
  | 0 => if negb comp && low
         then if Z.land base 3 =? 3 then Some (wrap 64 (base + 1), fNX) else Some (base, fl)
         else if low || comp then Some (wrap 64 (base + 1), fl) else Some (base, fl)
  | 1 => Some (base, fl)
  | 2 => if sign && (low || comp) then Some (wrap 64 (base + 2), fl) else Some (base, fl)
  | 3 => if negb sign && (low || comp) then Some (wrap 64 (base + 2), fl) else Some (base, fl)
  | 4 => if low || comp then Some (wrap 64 (base + 1), fl) else Some (base, fl)
  | _ => None end.

(** Denormals, and the shift that leaves one fraction bit (120-164): (base, rightshift_compressed,
    right_shift, flags). *)
Definition align (f : fmt) (exp sig : Z) : Z * bool * Z * Z :=
  let right_shift := if exp =? 0 then 1 else sw f - 1 - (Z.shiftr exp (sw f) - bias f) in
  if exp =? 0 then (0, negb (sig =? 0), right_shift, fNX)
  else
    let base := Z.lor sig (Z.shiftl 1 (sw f)) in
    if width f - 1 <? right_shift then (0, negb (base =? 0), right_shift, fNX)
    else if 0 <? right_shift then
      let right_shift := Z.min right_shift (width f) in
      (Z.shiftr base right_shift, negb (Z.land base (Z.shiftl 1 right_shift - 1) =? 0), right_shift, 0)
    else (base, false, right_shift, 0).

(** The range check and the final value (252-281).  -(To)x is signed arithmetic for a signed To (int
    for 32 bits); both arms of the conditional are converted to uint64_t and then to To. *)
Definition finish (m : ovf) (sg : bool) (w : Z) (sign : bool) (u fl : Z) : option (Z * Z) :=
  if sg then
    if negb sign && (kMax sg w <? u) then Some (kMax sg w, fNV)
    else if sign && ((0 <? u) && (wrap 64 (- u) <? wrap 64 (kMin sg w))) then Some (kMin sg w, fNV)
    else if sign then bind (schk m w (- sgn w u)) (fun x => Some (sgn w x, fl)) else Some (sgn w u, fl)
  else
    if kMax sg w <? u then Some (if sign then kMin sg w else kMax sg w, fNV)
    else if sign && negb (u =? 0) then Some (kMin sg w, fNV)
    else Some (if sign then wrap w (- wrap w u) else wrap w u, fl).

(** The value and the flags (97-267); inner None: the function returned. *)
Definition convert (m : ovf) (f : fmt) (sg : bool) (w rm lhs : Z) : option (option (Z * Z)) :=
  if IsNaN f lhs || (lhs =? kPosInf f) then Some (Some (kMax sg w, fNV))
  else if lhs =? kNegInf f then Some (Some (kMin sg w, fNV))
  else if Z.land lhs (Z.lor (kExpMask f) (kSigMask f)) =? 0 then Some (Some (0, 0))
  else
    let sign := negb (Z.land lhs (Z.shiftl 1 (width f - 1)) =? 0) in
    let '(base, comp, right_shift, fl) := align f (Z.land (kExpMask f) lhs) (Z.land (kSigMask f) lhs) in
    let rounded := if 0 <=? right_shift then round_base rm sign base comp fl else Some (base, fl) in
    match rounded with
    | None => Some None
    | Some (base, fl) =>
        let (u, fl) :=
          if 0 <=? right_shift then
            (Z.shiftr base 1, if Z.testbit base 0 || comp then fNX else fl)
          else shift_loop (Z.to_nat (- right_shift - 1)) (if sign then kMin sg w else kMax sg w) base fl in
        bind (finish m sg w sign u fl) (fun r => Some (Some r))
    end.

(** The whole function; [resw]: width of Result.  The source is read without a boxing check (80), the
    value is sign-extended from To to Result (268-276), flags are only written when nonzero. *)
Definition cvt_int (m : ovf) (dyn : option Z) (f : fmt) (sg : bool) (w resw : Z) (s : list Z) (old : Z) : option outcome :=
  bind (get s 0 (width f)) (fun lhs =>
  bind (get s 1 32) (fun rm =>
  match resolve dyn rm with
  | None => Some Nothing
  | Some rm =>
      bind (convert m f sg w rm lhs) (fun r =>
        match r with
        | None => Some Nothing
        | Some (v, fl) => Some (Wrote (set_low resw old (sgn w v)) fl) end)
  end)).

(** ** Instructions *)

(** Model only: equality of formats. *)
Definition is_fmt (f g : fmt) : bool := (ew f =? ew g) && (sw f =? sw g).

(** The source operands each opcode declares: riscv32g.isa:639-745, 755-860, 872-906,
    riscv64g.isa:775-895, 906-1034, riscv_zfh.isa:51-120, 134-185, 208-300.  fmv_xh, fmin_h, fmax_h and
    fsgnj*_h declare no rm operand. *)
Definition operands (I : finst) (a b rm : Z) : list Z :=
  match I with
  | FMin _ | FMax _ | FSgnj _ _ | FEq _ | FLt _ | FLe _ => [a; b]
  | FClass _ | FMvXF _ | FMvFX _ | FLoad _ _ => [a]
  | FCvtInt _ _ _ | FWiden _ _ => [a; rm] end.

(** The semantic functions named by the semfunc attributes of the same opcodes.  [canon_u32]: the value
    of FPTypeInfo<uint32_t>::kCanonicalNaN, which fsgnj*.s uses (riscv_f_instructions.cc:331-352 with
    riscv_instruction_helpers.h:294-297).  fmin.h and fmax.h (RiscVZfhBinaryHelper,
    riscv_zfh_instructions.cc:396-438, 811-843) first read the missing operand; what they would do
    after that is not modelled here. *)
Definition semfunc (m : ovf) (canon_u32 xl : Z) (dyn : option Z) (I : finst) (s : list Z) (old : Z) : option outcome :=
  match I with
  | FMin f => if is_fmt f half then bind (get s 2 32) (fun _ => None)
              else if is_fmt f single then binary_nanbox 64 32 32 (kCanonicalNaN single) (op_min single) s old
              else binary_op 64 64 (op_min double) s old
  | FMax f => if is_fmt f half then bind (get s 2 32) (fun _ => None)
              else if is_fmt f single then binary_nanbox 64 32 32 (kCanonicalNaN single) (op_max_s single) s old
              else binary_op 64 64 (op_max_d double) s old
  | FSgnj f k => if is_fmt f half then binary_float_nanbox dyn half (fun _ a b => (op_sgnj half k a b, 0)) s old
                 else if is_fmt f single then binary_nanbox 64 32 32 canon_u32 (fun a b => (op_sgnj single k a b, 0)) s old
                 else binary_op 64 64 (fun a b => (op_sgnj double k a b, 0)) s old
  | FEq f => if is_fmt f half then zfh_eq xl s old
             else if is_fmt f single then binary_nanbox xl xl 32 (kCanonicalNaN single) (op_eq single) s old
             else binary_op xl 64 (op_eq double) s old
  | FLt f => if is_fmt f half then zfh_rel host_lt xl s old
             else if is_fmt f single then binary_nanbox xl xl 32 (kCanonicalNaN single) (op_lt single) s old
             else binary_op xl 64 (op_lt double) s old
  | FLe f => if is_fmt f half then zfh_rel host_le xl s old
             else if is_fmt f single then binary_nanbox xl xl 32 (kCanonicalNaN single) (op_le single) s old
             else binary_op xl 64 (op_le double) s old
  | FClass f => if is_fmt f half then unary_op xl 16 (ClassifyFP half) s old
                else if is_fmt f single then unary_op 32 32 (ClassifyFP single) s old
                else unary_op xl 64 (ClassifyFP double) s old
  | FCvtInt f sg w => cvt_int m dyn f sg w xl s old
  | FWiden f g => if is_fmt f half then zfh_widen dyn g s old
                  else unary_float_op dyn 64 32 op_cvt_ds s old
  | FMvXF f => if is_fmt f half then unary_float_op dyn xl 16 (fun _ a => (op_mvxh xl a, 0)) s old
               else if is_fmt f single then unary_op xl 32 (fun a => sgn 32 a) s old
               else unary_op 64 64 (fun a => a) s old
  | FMvFX f => if is_fmt f half then bind (get s 0 xl) (fun a => Some (Wrote (nanbox_z 64 16 old (wrap 16 a)) 0))
               else if is_fmt f single then unary_nanbox 64 32 32 32 0 (fun a => (a, 0)) s old
               else unary_op 64 64 (fun a => a) s old
  | FLoad f c =>
      bind (get s 0 (width f)) (fun v =>
      Some (Wrote (if c then if is_fmt f single then load_child 32 32 old v else load_child 64 64 old v
                   else if is_fmt f double then load_child 64 64 old v
                   else nanbox_z 64 (width f) old v) 0))
  end.

(** An instruction as decoded: its declared operands passed to its semantic function. *)
Definition exec (m : ovf) (canon_u32 xl : Z) (dyn : option Z) (I : finst) (rm a b old : Z) : option outcome :=
  semfunc m canon_u32 xl dyn I (operands I a b rm) old.
