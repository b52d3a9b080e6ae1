(** Model of the half-precision instructions with a rounded result:
    /repo/riscv/riscv_zfh_instructions.cc, operand lists of riscv_zfh.isa. *)
From Coq Require Import ZArith Bool List.
From Verif Require Import Bits IeeeSpec FpSpec IntModel FpModel FarithSpec FarithModel.
Import ListNotations.
Local Open Scope Z_scope.

(** ConvertToHalfFP<T> (riscv_zfh_instructions.cc:145-292), [f] the format of T: pattern and the flags
    added to fflags.  The flags the two host operations raise are discarded: every caller runs it inside
    a ScopedFPRoundingMode, whose destructor restores the host's status (riscv_fp_host.h:54-67).
    UIntType and IntType have [width f] bits. *)
Definition to_half (H : host) (f : fmt) (rm in_int : Z) : Z * Z :=
  let W := width f in
  let mantissa := Z.land in_int (kSigMask f) in
  let exponent := Z.shiftr (Z.land in_int (kExpMask f)) (sw f) in
  let sign := Z.shiftr in_int (W - 1) in
  (* 161-167 *)
  if IsNaN f in_int then (kCanonicalNaN half, flag (IsSNaN f in_int))
  (* 169-173 *)
  else if IsInf f in_int then (Z.lor (kPosInf half) (wrap 16 (Z.shiftl (Z.land sign 1) (width half - 1))), 0)
  (* 175-179 *)
  else if (in_int =? 0) || (in_int =? Z.shiftl 1 (W - 1)) then (wrap 16 (Z.shiftr in_int (W - width half)), 0)
  else
    let bias_diff := bias f - bias half in
    let unbounded_half_exponent := exponent - bias_diff in
    let sig_size_diff := sw f - sw half in
    let half_inf_exponent := Z.shiftl 1 (ew half) - 1 in
    let source_type_inf_exponent := Z.shiftl 1 (ew f) - 1 in
    (* 188-191 *)
    let ftmp := Z.lor (Z.lor (wrap W (Z.shiftl sign (W - 1))) (Z.shiftl 1 (sw f))) mantissa in
    (* 196-209 *)
    let default_fdiv_exp := bias f + sig_size_diff in
    let fdiv_exp :=
      if 0 <? unbounded_half_exponent then default_fdiv_exp
      else if unbounded_half_exponent <? 0 then
        let shift_count := 1 - exponent + bias_diff in
        Z.min (wrap W (default_fdiv_exp + shift_count)) (source_type_inf_exponent - 1)
      else default_fdiv_exp + 1 in
    let fdiv := wrap W (Z.shiftl fdiv_exp (sw f)) in
    (* 211-218 *)
    let res := fst (h_div H f (host_rm rm) ftmp fdiv) in
    let fmultiply := wrap W (Z.shiftl default_fdiv_exp (sw f)) in
    let res2 := fst (h_mul H f (host_rm rm) res fmultiply) in
    (* 221-224 *)
    let exp_diff := Z.land (Z.shiftr res2 (sw f)) source_type_inf_exponent - 1 in
    let new_exponent := Z.land (wrap W (exponent + exp_diff)) source_type_inf_exponent in
    (* 226-234 *)
    let half_exponent :=
      if 0 <? unbounded_half_exponent then wrap W (new_exponent - bias_diff)
      else if unbounded_half_exponent <? 0 then 0
      else Z.land (Z.shiftr res2 (sw f)) half_inf_exponent in
    (* 236-242 *)
    let half_mantissa :=
      if unbounded_half_exponent <? 0 then
        if negb (Z.land res (Z.shiftl 1 (sw half)) =? 0) then Z.land (Z.shiftr res 1) (kSigMask half) else Z.land res (kSigMask half)
      else Z.land (Z.shiftr res2 sig_size_diff) (kSigMask half) in
    (* 244-270 *)
    let overflow := half_inf_exponent <=? half_exponent in
    let '(half_exponent, half_mantissa) :=
      if overflow then
        let largest := (half_inf_exponent - 1, kSigMask half) in
        let infinity := (half_inf_exponent, 0) in
        match rm with
        | 1 => largest
        | 2 => if negb (sign =? 0) then infinity else largest
        | 3 => if negb (sign =? 0) then largest else infinity
        | _ => infinity end
      else (half_exponent, half_mantissa) in
    (* 272-275 *)
    let value := wrap 16 (Z.lor (Z.lor half_mantissa (Z.shiftl half_exponent (sw half))) (Z.shiftl sign (width half - 1))) in
    (* 277-291 *)
    let exact_conversion := host_eq f (fst (from_half f value)) in_int in
    let differ := negb (host_eq f res2 ftmp) in
    let fl_overflow := if overflow then Z.lor fOF fNX else 0 in
    let fl_underflow :=
      if negb exact_conversion && ((unbounded_half_exponent <? 0) || ((unbounded_half_exponent =? 0) && differ)) then fUF else 0 in
    let fl_inexact := if negb exact_conversion && differ then fNX else 0 in
    (value, Z.lor fl_overflow (Z.lor fl_underflow fl_inexact)).

(** RiscVZfhCvtHelper<HalfFP, float or double> with the lambdas of RiscVZfhCvtHs and Hd
    (riscv_zfh_instructions.cc:294-348, 762-767, 778-783); operands {: frs1, rm : frd, fflags}
    (riscv_zfh.isa:49-52, 57-60). *)
Definition zfh_narrow (H : host) (dyn : option Z) (f : fmt) (s : list Z) (old : Z) : option outcome :=
  bind (boxed_source 64 (width f) (kCanonicalNaN f) s 0) (fun lhs =>
  bind (get s 1 32) (fun rm =>
  match resolve dyn rm with
  | None => Some Nothing
  | Some rm =>
      let (v, fl) := to_half H f rm lhs in
      Some (Wrote (nanbox_z 64 16 old v) (Z.lor (flag (IsSNaN f lhs)) fl)) end)).

(** RiscVZfhCvtHelper<HalfFP, (u)intW_t> with the lambdas of RiscVZfhCvtHw, Hwu, Hl, Hlu
    (riscv_zfh_instructions.cc:294-348, 717-733, 921-941); the flags of the conversion to float are
    restored by ScopedFPRoundingMode. *)
Definition zfh_of_int (H : host) (dyn : option Z) (sg : bool) (w : Z) (s : list Z) (old : Z) : option outcome :=
  bind (get s 0 w) (fun lhs =>
  bind (get s 1 32) (fun rm =>
  match resolve dyn rm with
  | None => Some Nothing
  | Some rm =>
      let (v, fl) := to_half H single rm (fst (h_int H single (host_rm rm) (int_arg sg w lhs))) in
      Some (Wrote (nanbox_z 64 16 old v) fl) end)).

(** The lambda inside RiscVZfhBinaryHelper<HalfFP, float> (riscv_zfh_instructions.cc:404-434): widen,
    operate in single precision, narrow.  fflags also collects the flags set before the instruction
    (429), which SetBits leaves set anyway. *)
Definition half_binary (H : host) (op : fmt -> Z -> Z -> Z -> Z * Z) (rm a b : Z) : Z * Z :=
  let (x, f1) := from_half single a in
  let (y, f2) := from_half single b in
  let (z, f3) := op single (host_rm rm) x y in
  let (v, f4) := to_half H single rm z in
  (v, Z.lor (Z.lor (Z.lor f1 f2) f3) f4).
(** RiscVZfhUnaryHelper's lambda (riscv_zfh_instructions.cc:359-390). *)
Definition half_unary (H : host) (op : fmt -> Z -> Z -> Z * Z) (rm a : Z) : Z * Z :=
  let (x, f1) := from_half single a in
  let (z, f3) := op single (host_rm rm) x in
  let (v, f4) := to_half H single rm z in
  (v, Z.lor (Z.lor f1 f3) f4).
(** RiscVZfhTernaryHelper's lambda (riscv_zfh_instructions.cc:453-488) with the lambdas of Fmadd, Fmsub,
    Fnmadd, Fnmsub (889-918). *)
Definition half_fma (H : host) (wide np na : bool) (rm a b c : Z) : Z * Z :=
  let (x, f1) := from_half single a in
  let (y, f2) := from_half single b in
  let (z, f3) := from_half single c in
  let (t, f4) := fma_call H wide single (host_rm rm) (if np then neg single x else x) y (if na then neg single z else z) in
  let (v, f5) := to_half H single rm t in
  (v, Z.lor (Z.lor (Z.lor (Z.lor f1 f2) f3) f4) f5).

(** The instructions (riscv_zfh.isa:45-61, 134-199, 280-287; riscv_zfh_instructions.cc:785-919). *)
Definition half_exec (H : host) (wide : bool) (dyn : option Z) (I : ainst) (rm a b c old : Z) : option outcome :=
  match I with
  | AAdd _ => binary_float_nanbox dyn half (half_binary H (h_add H)) [a; b; rm] old
  | ASub _ => binary_float_nanbox dyn half (half_binary H (h_sub H)) [a; b; rm] old
  | AMul _ => binary_float_nanbox dyn half (half_binary H (h_mul H)) [a; b; rm] old
  | ADiv _ => binary_float_nanbox dyn half (half_binary H (h_div H)) [a; b; rm] old
  | ASqrt _ => unary_float_nanbox dyn 64 16 16 (kCanonicalNaN half) half (half_unary H (h_sqrt H)) [a; rm] old
  | AFma _ np na => ternary_float_nanbox dyn half (half_fma H wide np na) [a; b; c; rm] old
  | ANarrow f _ => zfh_narrow H dyn f [a; rm] old
  | AOfInt _ sg w => zfh_of_int H dyn sg w [a; rm] old
  end.
