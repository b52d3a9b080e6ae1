(** Specification of the element-wise vector floating-point instructions (C79-C81), after the RISC-V "V"
    specification 1.0, chapter 13.  Nothing here refers to the model. *)
From Coq Require Import ZArith Bool List.
From Verif Require Import Bits Memory IeeeSpec FpSpec FarithSpec VelemSpec.
Import ListNotations.
Local Open Scope Z_scope.

(** The instructions.  The conversions: XF to an integer, FX from an integer, FF between formats; w
    widens, n narrows; [rtz]: towards zero instead of frm; [sg]: signed.  [VfncvtRod]: vfncvt.rod.f.f.w. *)
Inductive fvop :=
| Vfadd | Vfsub | Vfrsub | Vfmul | Vfdiv | Vfrdiv | Vfsqrt
| Vfmadd | Vfnmadd | Vfmsub | Vfnmsub | Vfmacc | Vfnmacc | Vfmsac | Vfnmsac
| Vfwadd | Vfwsub | Vfwaddw | Vfwsubw | Vfwmul | Vfwmacc | Vfwnmacc | Vfwmsac | Vfwnmsac
| Vfmin | Vfmax | Vfsgnj (k : injection) | Vfclass | Vfmerge | Vfrsqrt7 | Vfrec7
| VfcvtXF (rtz sg : bool) | VfwcvtXF (rtz sg : bool) | VfncvtXF (rtz sg : bool)
| VfcvtFX (sg : bool) | VfwcvtFX (sg : bool) | VfncvtFX (sg : bool)
| VfwcvtFF | VfncvtFF | VfncvtRod.

(** The second source: vector register (.vv) or floating-point register (.vf). *)
Inductive fsrc := FV (r : Z) | FS (r : Z).
Record fvinst := { fi_op : fvop; fi_vd : Z; fi_vs2 : Z; fi_src1 : fsrc; fi_vm : bool }.

(** Element widths in bytes of vd, vs2 and vs1 at a given SEW. *)
Definition fwidths (o : fvop) (sew : Z) : Z * Z * Z :=
  match o with
  | Vfwadd | Vfwsub | Vfwmul | Vfwmacc | Vfwnmacc | Vfwmsac | Vfwnmsac
  | VfwcvtXF _ _ | VfwcvtFX _ | VfwcvtFF => (2 * sew, sew, sew)
  | Vfwaddw | Vfwsubw => (2 * sew, 2 * sew, sew)
  | VfncvtXF _ _ | VfncvtFX _ | VfncvtFF | VfncvtRod => (sew, 2 * sew, sew)
  | _ => (sew, sew, sew) end.
(** Has a vs1 or rs1 operand; reads vd. *)
Definition has_f1 (o : fvop) : bool :=
  match o with
  | Vfsqrt | Vfclass | Vfrsqrt7 | Vfrec7 | VfcvtXF _ _ | VfwcvtXF _ _ | VfncvtXF _ _ | VfcvtFX _ | VfwcvtFX _
  | VfncvtFX _ | VfwcvtFF | VfncvtFF | VfncvtRod => false
  | _ => true end.
Definition freads_vd (o : fvop) : bool :=
  match o with
  | Vfmadd | Vfnmadd | Vfmsub | Vfnmsub | Vfmacc | Vfnmacc | Vfmsac | Vfnmsac | Vfwmacc | Vfwnmacc | Vfwmsac | Vfwnmsac => true
  | _ => false end.
(** vfmerge uses v0 as an operand and writes every body element. *)
Definition fmerges (o : fvop) : bool := match o with Vfmerge => true | _ => false end.
(** Instructions whose results or flags depend on frm.  (An invalid frm makes every vector floating-point
    instruction illegal, these or not.) *)
Definition uses_frm (o : fvop) : bool :=
  match o with
  | Vfmin | Vfmax | Vfsgnj _ | Vfclass | Vfmerge | Vfrsqrt7 | Vfrec7 | VfcvtXF true _ | VfwcvtXF true _ | VfncvtXF true _
  | VfwcvtFF => false
  | _ => true end.

(** SEWs (bytes) at which the floating-point operands are single or double. *)
Definition fsews (o : fvop) : list Z :=
  match o with
  | Vfwadd | Vfwsub | Vfwaddw | Vfwsubw | Vfwmul | Vfwmacc | Vfwnmacc | Vfwmsac | Vfwnmsac
  | VfwcvtXF _ _ | VfwcvtFF | VfncvtFX _ | VfncvtFF | VfncvtRod => [4]
  | VfwcvtFX _ | VfncvtXF _ _ => [2; 4]
  | _ => [4; 8] end.
(** The format of [b] bits. *)
Definition ffmt (b : Z) : fmt := if b =? 64 then double else single.

(** ** Element results *)

(** An operation on operands widened to double: all flags count. *)
Definition on_wide (mode : Z) (x y : Z) (op : Z -> Z -> Z * Z) : Z * Z :=
  let (x', fx) := ieee_cvt single double mode x in
  let (y', fy) := ieee_cvt single double mode y in
  let (r, fl) := op x' y' in (r, Z.lor fx (Z.lor fy fl)).
Definition on_wide1 (mode : Z) (y : Z) (op : Z -> Z * Z) : Z * Z :=
  let (y', fy) := ieee_cvt single double mode y in let (r, fl) := op y' in (r, Z.lor fy fl).

(** +-(p * q) +- a, rounded once. *)
Definition fused (f : fmt) (mode : Z) (np na : bool) (p q a : Z) : Z * Z :=
  ieee_fma f mode (opt_flip f np p) q (opt_flip f na a).

(** To single, rounding to odd: an inexact result is the neighbour whose last bit is set. *)
Definition to_odd (x : Z) : Z * Z :=
  let lo := fst (ieee_cvt double single 2 x) in
  let hi := fst (ieee_cvt double single 3 x) in
  (if lo =? hi then lo else if Z.odd lo then lo else hi, snd (ieee_cvt double single 1 x)).

(** Result and flags, SEW = [b] bits, rounding mode [mode], v0 bit [m], elements [x] of vs2, [y] of vs1
    (or the scalar), [z] of vd. *)
Definition fvres (o : fvop) (b mode : Z) (m : bool) (x y z : Z) : Z * Z :=
  let f := ffmt b in
  match o with
  | Vfadd => ieee_add f mode x y | Vfsub => ieee_sub f mode x y | Vfrsub => ieee_sub f mode y x
  | Vfmul => ieee_mul f mode x y | Vfdiv => ieee_div f mode x y | Vfrdiv => ieee_div f mode y x
  | Vfsqrt => ieee_sqrt f mode x
  | Vfmadd => fused f mode false false y z x | Vfnmadd => fused f mode true true y z x
  | Vfmsub => fused f mode false true y z x | Vfnmsub => fused f mode true false y z x
  | Vfmacc => fused f mode false false y x z | Vfnmacc => fused f mode true true y x z
  | Vfmsac => fused f mode false true y x z | Vfnmsac => fused f mode true false y x z
  | Vfwadd => on_wide mode x y (ieee_add double mode) | Vfwsub => on_wide mode x y (ieee_sub double mode)
  | Vfwaddw => on_wide1 mode y (ieee_add double mode x) | Vfwsubw => on_wide1 mode y (ieee_sub double mode x)
  | Vfwmul => on_wide mode x y (ieee_mul double mode)
  | Vfwmacc => on_wide mode x y (fun x y => fused double mode false false y x z)
  | Vfwnmacc => on_wide mode x y (fun x y => fused double mode true true y x z)
  | Vfwmsac => on_wide mode x y (fun x y => fused double mode false true y x z)
  | Vfwnmsac => on_wide mode x y (fun x y => fused double mode true false y x z)
  | Vfmin => (min_max f true x y, nv (either_snan f x y))
  | Vfmax => (min_max f false x y, nv (either_snan f x y))
  | Vfsgnj k => (inject f k x y, 0)
  | Vfclass => (2 ^ class_bit f x, 0)
  | Vfmerge => (if m then y else x, 0)
  | VfcvtFX sg => ieee_of_int f mode (if sg then sgn b x else wrap b x)
  | VfwcvtFX sg => ieee_of_int (ffmt (2 * b)) mode (if sg then sgn b x else wrap b x)
  | VfncvtFX sg => ieee_of_int f mode (if sg then sgn (2 * b) x else wrap (2 * b) x)
  | VfwcvtFF => ieee_cvt single double mode x
  | VfncvtFF => ieee_cvt double single mode x
  | VfncvtRod => to_odd x
  | Vfrsqrt7 | Vfrec7 | VfcvtXF _ _ | VfwcvtXF _ _ | VfncvtXF _ _ => (0, 0) end.

(** 1 / sqrt x, correct to 7 bits: a positive number with 7 significant bits after the leading one, whose
    relative error is below 2^-7 (r = units r / 2^quantum, so r^2 x = (units r)^2 (units x) / 2^(3 quantum)). *)
Definition rsqrt7 (f : fmt) (x r fl : Z) : Prop :=
  if is_nan f x then r = canonical_nan f /\ fl = nv (is_snan f x)
  else if is_zero f x then r = infinity f (sign f x) /\ fl = fDZ
  else if sign f x then r = canonical_nan f /\ fl = fNV
  else if is_inf f x then r = zero f false /\ fl = 0
  else fl = 0 /\ 0 <= r < infinity f false /\ r mod 2 ^ (sw f - 7) = 0 /\
    127 ^ 2 * 2 ^ (3 * quantum f) < 128 ^ 2 * (units f r ^ 2 * units f x) < 129 ^ 2 * 2 ^ (3 * quantum f).

(** The largest finite number. *)
Definition huge (f : fmt) (s : bool) : Z := with_sign f s ((2 ^ ew f - 1) * 2 ^ sw f - 1).
(** 1 / x overflows when |x| < 2 ^ (- bias - 1). *)
Definition recip_overflows (f : fmt) (x : Z) : bool := magnitude f x <? 2 ^ (sw f - 2).
(** 1 / x, correct to 7 bits: relative error below 2^-7. *)
Definition rec7 (f : fmt) (mode x r fl : Z) : Prop :=
  if is_nan f x then r = canonical_nan f /\ fl = nv (is_snan f x)
  else if is_zero f x then r = infinity f (sign f x) /\ fl = fDZ
  else if is_inf f x then r = zero f (sign f x) /\ fl = 0
  else if recip_overflows f x then
    fl = Z.lor fOF fNX /\
    r = (if (mode =? 1) || ((mode =? 2) && negb (sign f x)) || ((mode =? 3) && sign f x) then huge f (sign f x) else infinity f (sign f x))
  else fl = 0 /\ 0 <= r < 2 ^ width f /\ is_finite f r = true /\ sign f r = sign f x /\
    127 * 2 ^ (2 * quantum f) < 128 * (units f r * units f x) < 129 * 2 ^ (2 * quantum f).

(** The width of the integer and the format of a conversion to an integer. *)
Definition xf (o : fvop) (b : Z) : fmt * Z :=
  match o with VfwcvtXF _ _ => (ffmt b, 2 * b) | VfncvtXF _ _ => (ffmt (2 * b), b) | _ => (ffmt b, b) end.

(** The element [r] and the flags [fl] of an instruction. *)
Definition fvrel (o : fvop) (b mode : Z) (m : bool) (x y z r fl : Z) : Prop :=
  match o with
  | Vfrsqrt7 => rsqrt7 (ffmt b) x r fl
  | Vfrec7 => rec7 (ffmt b) mode x r fl
  | VfcvtXF rtz sg | VfwcvtXF rtz sg | VfncvtXF rtz sg =>
      let (f, w) := xf o b in exists v, to_int f sg w (if rtz then 1 else mode) x v fl /\ r = wrap w v
  | _ => (r, fl) = fvres o b mode m x y z end.

(** The format of the result of the instructions computed by the host's arithmetic; None: others. *)
Definition host_fmt (o : fvop) (b : Z) : option fmt :=
  match o with
  | Vfadd | Vfsub | Vfrsub | Vfmul | Vfdiv | Vfrdiv | Vfmadd | Vfnmadd | Vfmsub | Vfnmsub
  | Vfmacc | Vfnmacc | Vfmsac | Vfnmsac | Vfsqrt | VfncvtFF | VfncvtRod => Some (ffmt b)
  | Vfwadd | Vfwsub | Vfwaddw | Vfwsubw | Vfwmul | Vfwmacc | Vfwnmacc | Vfwmsac | Vfwnmsac | VfwcvtFF => Some double
  | _ => None end.
(** The same, but where the result of such an instruction is a NaN it may be any NaN. *)
Definition fvrel_nan (o : fvop) (b mode : Z) (m : bool) (x y z r fl : Z) : Prop :=
  match host_fmt o b with
  | Some f => like f (r, fl) (fvres o b mode m x y z)
  | None => fvrel o b mode m x y z r fl end.

(** ** Legal instances, active elements, effect *)

Definition flegal (vlenb sew lmul8 vl : Z) (I : fvinst) : Prop :=
  let '(wd, w2, w1) := fwidths (fi_op I) sew in
  config vlenb sew lmul8 vl /\ In sew (fsews (fi_op I)) /\
  group sew lmul8 wd (fi_vd I) /\ group sew lmul8 w2 (fi_vs2 I) /\ overlap_ok sew lmul8 wd (fi_vd I) w2 (fi_vs2 I) /\
  (if has_f1 (fi_op I) then
     match fi_src1 I with
     | FV r => group sew lmul8 w1 r /\ overlap_ok sew lmul8 wd (fi_vd I) w1 r
     | FS r => 0 <= r < 32 end
   else True) /\
  (fi_vm I = false -> fi_vd I <> 0) /\
  match fi_op I with
  | Vfmerge => fi_vm I = false /\ exists r, fi_src1 I = FS r
  | Vfrsub | Vfrdiv => exists r, fi_src1 I = FS r
  | _ => True end.

(** The second operand of element [j]: an element, or the NaN-boxed scalar. *)
Definition fsrc_elem (vlenb : Z) (rf : mem) (fpr : Z -> Z) (w : Z) (s : fsrc) (j : Z) : Z :=
  match s with FV r => elem vlenb rf r w j | FS r => unbox (ffmt (8 * w)) (fpr r) end.
Definition fmbit (vlenb : Z) (rf : mem) (I : fvinst) (j : Z) : bool := fi_vm I || vbit vlenb rf 0 j.
Definition factive (vlenb vstart vl : Z) (rf : mem) (I : fvinst) (j : Z) : Prop :=
  vstart <= j < vl /\ (fmerges (fi_op I) || fmbit vlenb rf I j) = true.

(** Each active element of vd gets a result related by [R] to the operands before the instruction; every
    other byte is unchanged; a flag is set iff it was set or some active element raises it. *)
Definition felementwise (R : fvop -> Z -> Z -> bool -> Z -> Z -> Z -> Z -> Z -> Prop)
  (vlenb sew mode vstart vl : Z) (fpr : Z -> Z) (I : fvinst) (rf rf' : mem) (fl fl' : Z) : Prop :=
  let '(wd, w2, w1) := fwidths (fi_op I) sew in
  exists raised : Z -> Z,
    (forall j, factive vlenb vstart vl rf I j ->
       R (fi_op I) (8 * sew) mode (fmbit vlenb rf I j)
         (elem vlenb rf (fi_vs2 I) w2 j) (fsrc_elem vlenb rf fpr w1 (fi_src1 I) j)
         (elem vlenb rf (fi_vd I) wd j) (elem vlenb rf' (fi_vd I) wd j) (raised j)) /\
    (forall a, (forall j, factive vlenb vstart vl rf I j -> ~ in_elem vlenb (fi_vd I) wd j a) -> rf' a = rf a) /\
    (forall k, 0 <= k -> Z.testbit fl' k = true <->
       Z.testbit fl k = true \/ exists j, factive vlenb vstart vl rf I j /\ Z.testbit (raised j) k = true).

(** ** Where the simulator is right *)

(** The value of [x] is the integer [n]. *)
Definition integral (f : fmt) (x n : Z) : Prop := is_finite f x = true /\ units f x = n * 2 ^ quantum f.
(** A conversion to an integer that needs no rounding; not the integer just above the range, unless the
    format has all the integers of the range. *)
Definition exact_int (f : fmt) (sg : bool) (w x : Z) : Prop :=
  is_finite f x = false \/ exists n, integral f x n /\ (n <> int_max sg w + 1 \/ w <= sw f).

(** The NaN results of the host's conversions and products are quiet (IEEE 754, 6.2). *)
Definition host_quiet_double (H : host) : Prop :=
  forall rm a b, 0 <= rm <= 3 ->
    (0 <= a < 2 ^ 32 -> is_snan double (fst (h_cvt H single double rm a)) = false) /\
    (0 <= a < 2 ^ 64 -> 0 <= b < 2 ^ 64 -> is_snan double (fst (h_mul H double rm a b)) = false).
(** The scalar operand, if there is one, is properly boxed. *)
Definition scalar_boxed (fpr : Z -> Z) (sew : Z) (I : fvinst) : Prop :=
  match fi_src1 I with
  | FS r => has_f1 (fi_op I) = true -> 0 <= fpr r < 2 ^ 64 /\ boxed (ffmt (8 * sew)) (fpr r) = true
  | FV _ => True end.

(** vfsqrt: no quiet NaN; vfwadd.w, vfwsub.w, vfmerge, vfncvt.rod: never; conversions to integers: exact;
    vfwcvt.f.f: no signaling NaN; vfrsqrt7: not +infinity, no quiet
    NaN, not the interval [1.375, 1.390625) 2^(2k); vfrec7: not zero, no signaling NaN, 1/x neither
    overflowing nor below the normal range. *)
Definition fv_safe (o : fvop) (b : Z) (x : Z) : Prop :=
  let f := ffmt b in
  match o with
  | Vfsqrt => is_nan f x = is_snan f x
  | Vfwaddw | Vfwsubw | Vfmerge | VfncvtRod => False
  | VfcvtXF _ sg | VfwcvtXF _ sg | VfncvtXF _ sg => let (f, w) := xf o b in exact_int f sg w x
  | VfwcvtFF => is_snan single x = false
  | Vfrsqrt7 => x <> infinity f false /\ is_nan f x = is_snan f x /\
      (forall k, ~ 88 * 2 ^ quantum f <= 64 * (units f x * 4 ^ k) < 89 * 2 ^ quantum f) /\
      (forall k, 0 < k -> ~ 88 * (2 ^ quantum f * 4 ^ k) <= 64 * units f x < 89 * (2 ^ quantum f * 4 ^ k))
  | Vfrec7 => is_zero f x = false /\ is_snan f x = false /\
      (is_finite f x = true -> recip_overflows f x = false /\ expo f x < 2 ^ ew f - 3)
  | _ => True end.
