(** Model of the arithmetic floating-point instructions: /repo/riscv/riscv_f_instructions.cc,
    riscv_d_instructions.cc, riscv_instruction_helpers.h.  The host's floating-point operations are a
    parameter (record [host] of FarithSpec). *)
From Coq Require Import ZArith Bool List.
From Verif Require Import Bits IeeeSpec FpSpec IntModel FpModel FarithSpec.
Import ListNotations.
Local Open Scope Z_scope.

(** ScopedFPStatus(host, rm) (riscv_fp_host_x86.cc:150-158, riscv_fp_host_arm.cc:122-130): the host
    mode a RISC-V mode selects; round to nearest, ties to max magnitude selects ties to even. *)
Definition host_rm (rm : Z) : Z := match rm with 1 => 1 | 2 => 2 | 3 => 3 | _ => 0 end.

(** Unary minus on a host float: the sign bit changes (riscv_f_instructions.cc:299, 312, 325). *)
Definition neg (f : fmt) (x : Z) : Z := Z.lxor x (Z.shiftl 1 (width f - 1)).

(** internal::CanonicalizeNaN (riscv_f_instructions.cc:132-138, riscv_d_instructions.cc:52-58).
    std::isnan raises no flag (IEEE 754 5.7.2); a compiler that implements it by a comparison would
    raise invalid for a signaling NaN. *)
Definition CanonicalizeNaN (f : fmt) (x : Z) : Z := if IsNaN f x then kCanonicalNaN f else x.

(** FPTypeInfo<T>::IsQNaN (riscv_f_instructions.cc:188). *)
Definition IsQNaN (f : fmt) (x : Z) : bool := IsNaN f x && Z.testbit x (sw f - 1).

(** Model only: an operation together with flags written to the fflags destination. *)
Definition or_flags (fl : Z) (r : Z * Z) : Z * Z := (fst r, Z.lor fl (snd r)).

(** ** Square root: RiscVFSqrt (riscv_f_instructions.cc:182-219), RiscVDSqrt
    (riscv_d_instructions.cc:84-122) inside RiscVUnaryNaNBoxOp (riscv_instruction_helpers.h:457-481).
    [wide]: the call sqrt(a) with a float selects the double function (as with <cmath> of libstdc++,
    which declares only that one in the global namespace); then the result is converted back. *)
Definition sqrt_call (H : host) (wide : bool) (f : fmt) (rm a : Z) : Z * Z :=
  if wide && is_fmt f single then
    let (x, fl0) := h_cvt H single double rm a in
    let (y, fl1) := h_sqrt H double rm x in
    let (z, fl2) := h_cvt H double single rm y in (z, Z.lor fl0 (Z.lor fl1 fl2))
  else h_sqrt H f rm a.
(** The instruction (same lines). *)
Definition exec_sqrt (H : host) (wide : bool) (dyn : option Z) (f : fmt) (s : list Z) (old : Z) : option outcome :=
  bind (boxed_source 64 (width f) (kCanonicalNaN f) s 0) (fun a =>
  let write v fl := Some (Wrote (nanbox 64 (width f) old v) fl) in
  if IsNaN f a || host_lt f a 0 then write (kCanonicalNaN f) (flag (negb (IsQNaN f a)))
  else if host_eq f a 0 then write a 0
  else bind (get s 1 32) (fun rm =>
    match resolve dyn rm with
    | None => write (kCanonicalNaN f) 0
    | Some rm => let (v, fl) := sqrt_call H wide f (host_rm rm) a in write v fl end)).

(** ** RiscVTernaryFloatNaNBoxOp (riscv_instruction_helpers.h:651-692): no boxing check. *)
Definition ternary_float_nanbox (dyn : option Z) (f : fmt) (op : Z -> Z -> Z -> Z -> Z * Z) (s : list Z) (old : Z) : option outcome :=
  bind (get s 0 (width f)) (fun a =>
  bind (get s 1 (width f)) (fun b =>
  bind (get s 2 (width f)) (fun c =>
  bind (get s 3 32) (fun rm =>
  match resolve dyn rm with
  | None => Some Nothing
  | Some rm => let (v, fl) := op rm a b c in Some (Wrote (nanbox 64 (width f) old v) fl) end)))).

(** inf * 0 in either order (riscv_f_instructions.cc:282, riscv_d_instructions.cc:182). *)
Definition inf_times_zero (f : fmt) (a b : Z) : bool :=
  (IsInf f a && host_eq f b 0) || (IsInf f b && host_eq f a 0).

(** fma(a, b, c) on floats; [wide] as for sqrt: the double function, then converted to float. *)
Definition fma_call (H : host) (wide : bool) (f : fmt) (rm a b c : Z) : Z * Z :=
  if wide && is_fmt f single then
    let (x, f1) := h_cvt H single double rm a in
    let (y, f2) := h_cvt H single double rm b in
    let (z, f3) := h_cvt H single double rm c in
    let (r, f4) := h_fma H double rm x y z in
    let (v, f5) := h_cvt H double single rm r in (v, Z.lor f1 (Z.lor f2 (Z.lor f3 (Z.lor f4 f5))))
  else h_fma H f rm a b c.

(** RiscVFMadd, FMsub, FNmadd, FNmsub (riscv_f_instructions.cc:277-328): fma(a, b, c), fma(a, b, -c),
    fma(-a, b, -c), fma(-a, b, c). *)
Definition op_fma_s (H : host) (wide np na : bool) (rm a b c : Z) : Z * Z :=
  let (v, fl) := fma_call H wide single (host_rm rm) (if np then neg single a else a) b (if na then neg single c else c) in
  (CanonicalizeNaN single v, Z.lor (flag (inf_times_zero single a b)) fl).

(** The tests shared by RiscVDMadd, DMsub, DNmadd, DNmsub (riscv_d_instructions.cc:176-292): [inf_c] is
    returned when only c is infinite; [c_sign]: c >> 63 or -c >> 63 in uint64_t, as computed there;
    [zero z]: result for a zero product and c = 0, z telling whether prod_sign == c_sign; [prod]: when c = 0; [full]: otherwise. *)
Definition fma_d_cases (a b c c_sign inf_c : Z) (zero : bool -> Z) (prod full : Z * Z) : Z * Z :=
  if IsNaN double a then (CanonicalizeNaN double a, 0)
  else if IsNaN double b then (CanonicalizeNaN double b, 0)
  else or_flags (flag (inf_times_zero double a b))
    (if IsNaN double c then (CanonicalizeNaN double c, 0)
     else if IsInf double c && negb (IsInf double a) && negb (IsInf double b) then (inf_c, 0)
     else if host_eq double c 0 then
       if (host_eq double a 0 && negb (IsInf double b)) || (host_eq double b 0 && negb (IsInf double a)) then
         let prod_sign := Z.shiftr (Z.lxor a b) 63 in
         (zero (prod_sign =? c_sign), 0)
       else (CanonicalizeNaN double (fst prod), snd prod)
     else (CanonicalizeNaN double (fst full), snd full)).

(** The four (riscv_d_instructions.cc:176-203, 205-232, 234-261, 263-292). *)
Definition op_fma_d (H : host) (np na : bool) (rm a b c : Z) : Z * Z :=
  let rm := host_rm rm in
  let negr (r : Z * Z) := (neg double (fst r), snd r) in
  match np, na with
  | false, false =>
      fma_d_cases a b c (Z.shiftr c 63) c (fun same => if same then c else 0) (h_mul H double rm a b) (h_fma H double rm a b c)
  | false, true =>
      fma_d_cases a b c (Z.shiftr (wrap 64 (- c)) 63) (neg double c) (fun same => if same then 0 else neg double c)
        (h_mul H double rm a b) (h_fma H double rm a b (neg double c))
  | true, true =>
      fma_d_cases a b c (Z.shiftr c 63) (neg double c) (fun same => if same then neg double c else 0)
        (h_mul H double rm (neg double a) b) (negr (h_fma H double rm a b c))
  | true, false =>
      fma_d_cases a b c (Z.shiftr (wrap 64 (- c)) 63) c (fun same => if same then c else 0)
        (h_mul H double rm (neg double a) b) (negr (h_fma H double rm a b (neg double c)))
  end.

(** ** RiscVUnaryFloatNaNBoxOp (riscv_instruction_helpers.h:485-532); a negative NaN is masked with
    kInfMask (all but the sign, by its use here). *)
Definition unary_float_nanbox (dyn : option Z) (srcw resf argw canon : Z) (f : fmt) (op : Z -> Z -> Z * Z) (s : list Z) (old : Z) : option outcome :=
  bind (boxed_source srcw argw canon s 0) (fun a =>
  bind (get s 1 32) (fun rm =>
  match resolve dyn rm with
  | None => Some Nothing
  | Some rm =>
      let (v, fl) := op rm a in
      let v := if IsNaN f v && SignBit f v then Z.land v (2 ^ (width f - 1) - 1) else v in
      Some (Wrote (nanbox 64 resf old v) fl) end)).

(** RiscVDCvtSd's lambda (riscv_d_instructions.cc:309-319). *)
Definition op_cvt_sd (H : host) (rm a : Z) : Z * Z :=
  if IsNaN double a then (kCanonicalNaN single, 0) else h_cvt H double single (host_rm rm) a.

(** The value of an integer argument of type (u)intW_t. *)
Definition int_arg (sg : bool) (w a : Z) : Z := if sg then sgn w a else wrap w a.

(** The instructions on single and double (semfunc attributes and operand lists of riscv64g.isa:783-861,
    914-996, riscv32g.isa:648-706, 763-829). *)
Definition a_exec (H : host) (wide : bool) (dyn : option Z) (I : ainst) (rm a b c old : Z) : option outcome :=
  match I with
  | AAdd f => binary_float_nanbox dyn f (fun rm => h_add H f (host_rm rm)) [a; b; rm] old
  | ASub f => binary_float_nanbox dyn f (fun rm => h_sub H f (host_rm rm)) [a; b; rm] old
  | AMul f => binary_float_nanbox dyn f (fun rm => h_mul H f (host_rm rm)) [a; b; rm] old
  | ADiv f => binary_float_nanbox dyn f (fun rm => h_div H f (host_rm rm)) [a; b; rm] old
  | ASqrt f => exec_sqrt H wide dyn f [a; rm] old
  | AFma f np na =>
      if is_fmt f single then ternary_float_nanbox dyn single (op_fma_s H wide np na) [a; b; c; rm] old
      else ternary_float_nanbox dyn double (op_fma_d H np na) [a; b; c; rm] old
  | ANarrow _ _ => unary_float_nanbox dyn 64 32 64 (kCanonicalNaN double) single (op_cvt_sd H) [a; rm] old
  | AOfInt f sg w =>
      if is_fmt f single then
        (* RiscVFCvtSw, Swu, Sl, Slu (riscv_f_instructions.cc:355-376). *)
        unary_float_nanbox dyn w 32 w 0 single (fun rm x => h_int H single (host_rm rm) (int_arg sg w x)) [a; rm] old
      else
        (* RiscVDCvtDw, Dwu (riscv_d_instructions.cc:297-306), Dl, Dlu (522-531). *)
        unary_float_op dyn 64 w (fun rm x => h_int H double (host_rm rm) (int_arg sg w x)) [a; rm] old
  end.
