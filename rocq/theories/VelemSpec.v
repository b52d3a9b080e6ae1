(** Specification of the element-wise vector instructions (C36, C37), after the RISC-V "V"
    specification 1.0 chapters 5, 11 and 12, and the vector bit-manipulation extension Zvbb.
    Nothing here refers to the model. *)
From Coq Require Import ZArith Bool List.
From Verif Require Import Bits Memory IntSpec.
Import ListNotations.
Local Open Scope Z_scope.

(** The instructions; the operand form (.vv, .vx, .vi) is chosen by [src]. *)
Inductive vop :=
| Vadd | Vsub | Vrsub | Vand | Vor | Vxor | Vsll | Vsrl | Vsra | Vnsrl | Vnsra
| Vminu | Vmin | Vmaxu | Vmax | Vsaddu | Vsadd | Vssubu | Vssub | Vadc | Vsbc | Vmerge
| Vssrl | Vssra | Vnclipu | Vnclip | Vsmul | Vaaddu | Vaadd | Vasubu | Vasub
| Vdivu | Vdiv | Vremu | Vrem | Vmulhu | Vmul | Vmulhsu | Vmulh
| Vmadd | Vnmsub | Vmacc | Vnmsac
| Vwaddu | Vwsubu | Vwadd | Vwsub | Vwadduw | Vwsubuw | Vwaddw | Vwsubw
| Vwmulu | Vwmulsu | Vwmul | Vwmaccu | Vwmacc | Vwmaccus | Vwmaccsu
| Vzext (k : Z) | Vsext (k : Z)
| Vandn | Vrol | Vror | Vwsll | Vbrev8 | Vrev8 | Vbrev | Vclz | Vctz | Vcpopv.

Inductive src := Vec (r : Z) | Scalar (x : Z).
(** [vi_vm = true]: unmasked. *)
Record vinst := { vi_op : vop; vi_vd : Z; vi_vs2 : Z; vi_src1 : src; vi_vm : bool }.

(** Element widths in bytes of vd, vs2 and vs1 at a given SEW (in bytes). *)
Definition widths (o : vop) (sew : Z) : Z * Z * Z :=
  match o with
  | Vnsrl | Vnsra | Vnclipu | Vnclip => (sew, 2 * sew, sew)
  | Vwaddu | Vwsubu | Vwadd | Vwsub | Vwmulu | Vwmulsu | Vwmul | Vwmaccu | Vwmacc | Vwmaccus | Vwmaccsu
  | Vwsll => (2 * sew, sew, sew)
  | Vwadduw | Vwsubuw | Vwaddw | Vwsubw => (2 * sew, 2 * sew, sew)
  | Vzext k | Vsext k => (sew, sew / k, sew)
  | _ => (sew, sew, sew) end.
(** Does the instruction have a vs1/rs1/imm operand? *)
Definition has_src1 (o : vop) : bool :=
  match o with Vzext _ | Vsext _ | Vbrev8 | Vrev8 | Vbrev | Vclz | Vctz | Vcpopv => false | _ => true end.
(** Is vd also a source? *)
Definition reads_vd (o : vop) : bool :=
  match o with Vmadd | Vnmsub | Vmacc | Vnmsac | Vwmaccu | Vwmacc | Vwmaccus | Vwmaccsu => true | _ => false end.
(** Instructions that use v0 as an operand and write every body element. *)
Definition uses_carry (o : vop) : bool := match o with Vadc | Vsbc | Vmerge => true | _ => false end.

(** Rounding of v / 2^d (vxrm: 0 nearest-up, 1 nearest-even, 2 down, 3 to odd). *)
Definition roundoff (rm v d : Z) : Z :=
  let q := v / 2 ^ d in let r := v mod 2 ^ d in
  if rm =? 0 then (if 2 ^ d <=? 2 * r then q + 1 else q)
  else if rm =? 1 then (if (2 ^ d <? 2 * r) || ((2 * r =? 2 ^ d) && Z.odd q) then q + 1 else q)
  else if rm =? 2 then q
  else (if negb (r =? 0) && Z.even q then q + 1 else q).

(** Saturation to an interval, with a flag. *)
Definition clamp (lo hi v : Z) : Z * bool :=
  if v <? lo then (lo, true) else if hi <? v then (hi, true) else (v, false).
Definition clampu (b v : Z) : Z * bool := clamp 0 (2 ^ b - 1) v.
Definition clamps (b v : Z) : Z * bool :=
  let (r, s) := clamp (- 2 ^ (b - 1)) (2 ^ (b - 1) - 1) v in (wrap b r, s).

(** [vrel o b rm m x y z r sat]: SEW = [b] bits, rounding mode [rm], v0 bit [m], elements [x] of
    vs2, [y] of vs1, [z] of vd (all unsigned) give the element [r] and saturate iff [sat]. *)
Definition vrel (o : vop) (b rm : Z) (m : bool) (x y z r : Z) (sat : bool) : Prop :=
  let sx := sgn b x in let sy := sgn b y in
  match o with
  | Vadd => r = wrap b (x + y) /\ sat = false
  | Vsub => r = wrap b (x - y) /\ sat = false
  | Vrsub => r = wrap b (y - x) /\ sat = false
  | Vand => bitwise b r (fun i => Z.testbit x i && Z.testbit y i) /\ sat = false
  | Vor => bitwise b r (fun i => Z.testbit x i || Z.testbit y i) /\ sat = false
  | Vxor => bitwise b r (fun i => xorb (Z.testbit x i) (Z.testbit y i)) /\ sat = false
  | Vsll => r = wrap b (x * 2 ^ (y mod b)) /\ sat = false
  | Vsrl => r = x / 2 ^ (y mod b) /\ sat = false
  | Vsra => r = wrap b (sx / 2 ^ (y mod b)) /\ sat = false
  | Vnsrl => r = wrap b (x / 2 ^ (y mod (2 * b))) /\ sat = false
  | Vnsra => r = wrap b (sgn (2 * b) x / 2 ^ (y mod (2 * b))) /\ sat = false
  | Vminu => r = Z.min x y /\ sat = false
  | Vmin => r = wrap b (Z.min sx sy) /\ sat = false
  | Vmaxu => r = Z.max x y /\ sat = false
  | Vmax => r = wrap b (Z.max sx sy) /\ sat = false
  | Vsaddu => (r, sat) = clampu b (x + y)
  | Vsadd => (r, sat) = clamps b (sx + sy)
  | Vssubu => (r, sat) = clampu b (x - y)
  | Vssub => (r, sat) = clamps b (sx - sy)
  | Vadc => r = wrap b (x + y + Z.b2z m) /\ sat = false
  | Vsbc => r = wrap b (x - y - Z.b2z m) /\ sat = false
  | Vmerge => r = (if m then y else x) /\ sat = false
  | Vssrl => r = roundoff rm x (y mod b) /\ sat = false
  | Vssra => r = wrap b (roundoff rm sx (y mod b)) /\ sat = false
  | Vnclipu => (r, sat) = clampu b (roundoff rm x (y mod (2 * b)))
  | Vnclip => (r, sat) = clamps b (roundoff rm (sgn (2 * b) x) (y mod (2 * b)))
  | Vsmul => (r, sat) = clamps b (roundoff rm (sx * sy) (b - 1))
  | Vaaddu => r = wrap b (roundoff rm (x + y) 1) /\ sat = false
  | Vaadd => r = wrap b (roundoff rm (sx + sy) 1) /\ sat = false
  | Vasubu => r = wrap b (roundoff rm (x - y) 1) /\ sat = false
  | Vasub => r = wrap b (roundoff rm (sx - sy) 1) /\ sat = false
  | Vdivu => r = (if y =? 0 then 2 ^ b - 1 else x / y) /\ sat = false
  | Vdiv => r = wrap b (div_spec b sx sy) /\ sat = false
  | Vremu => r = (if y =? 0 then x else x mod y) /\ sat = false
  | Vrem => r = wrap b (rem_spec b sx sy) /\ sat = false
  | Vmulhu => r = x * y / 2 ^ b /\ sat = false
  | Vmul => r = wrap b (x * y) /\ sat = false
  | Vmulhsu => r = wrap b (sx * y / 2 ^ b) /\ sat = false
  | Vmulh => r = wrap b (sx * sy / 2 ^ b) /\ sat = false
  | Vmadd => r = wrap b (y * z + x) /\ sat = false
  | Vnmsub => r = wrap b (- (y * z) + x) /\ sat = false
  | Vmacc => r = wrap b (y * x + z) /\ sat = false
  | Vnmsac => r = wrap b (- (y * x) + z) /\ sat = false
  | Vwaddu => r = wrap (2 * b) (x + y) /\ sat = false
  | Vwsubu => r = wrap (2 * b) (x - y) /\ sat = false
  | Vwadd => r = wrap (2 * b) (sx + sy) /\ sat = false
  | Vwsub => r = wrap (2 * b) (sx - sy) /\ sat = false
  | Vwadduw => r = wrap (2 * b) (x + y) /\ sat = false
  | Vwsubuw => r = wrap (2 * b) (x - y) /\ sat = false
  | Vwaddw => r = wrap (2 * b) (x + sy) /\ sat = false
  | Vwsubw => r = wrap (2 * b) (x - sy) /\ sat = false
  | Vwmulu => r = x * y /\ sat = false
  | Vwmulsu => r = wrap (2 * b) (sx * y) /\ sat = false
  | Vwmul => r = wrap (2 * b) (sx * sy) /\ sat = false
  | Vwmaccu => r = wrap (2 * b) (y * x + z) /\ sat = false
  | Vwmacc => r = wrap (2 * b) (sy * sx + z) /\ sat = false
  | Vwmaccus => r = wrap (2 * b) (y * sx + z) /\ sat = false
  | Vwmaccsu => r = wrap (2 * b) (sy * x + z) /\ sat = false
  | Vzext k => r = x /\ sat = false
  | Vsext k => r = wrap b (sgn (b / k) x) /\ sat = false
  | Vandn => bitwise b r (fun i => Z.testbit x i && negb (Z.testbit y i)) /\ sat = false
  | Vrol => bitwise b r (fun i => Z.testbit x ((i - y) mod b)) /\ sat = false
  | Vror => bitwise b r (fun i => Z.testbit x ((i + y) mod b)) /\ sat = false
  | Vwsll => r = wrap (2 * b) (x * 2 ^ (y mod (2 * b))) /\ sat = false
  | Vbrev8 => bitwise b r (fun i => Z.testbit x (8 * (i / 8) + (7 - i mod 8))) /\ sat = false
  | Vrev8 => bitwise b r (fun i => Z.testbit x (b - 8 - 8 * (i / 8) + i mod 8)) /\ sat = false
  | Vbrev => bitwise b r (fun i => Z.testbit x (b - 1 - i)) /\ sat = false
  | Vclz => leading_zeros b x r /\ sat = false
  | Vctz => trailing_zeros b x r /\ sat = false
  | Vcpopv => r = ones_count b x /\ sat = false
  end.

(** The register file: byte [k] of register [r] is at [r * vlenb + k]; element [i] of width [w]
    bytes of the group starting at [r]; bit [i] of register [r]. *)
Definition elem (vlenb : Z) (rf : mem) (r w i : Z) : Z := load_le rf (r * vlenb + i * w) (Z.to_nat w).
Definition vbit (vlenb : Z) (rf : mem) (r i : Z) : bool := Z.testbit (rf (r * vlenb + i / 8)) (i mod 8).
Definition in_elem (vlenb r w i a : Z) : Prop := r * vlenb + i * w <= a < r * vlenb + (i + 1) * w.

(** Configurations: VLEN = 64 .. 65536 bits, SEW = 8 .. 64 bits, LMUL = 1/8 .. 8 (as eighths). *)
Definition config (vlenb sew lmul8 vl : Z) : Prop :=
  (exists k, 3 <= k <= 13 /\ vlenb = 2 ^ k) /\ In sew [1; 2; 4; 8] /\ In lmul8 [1; 2; 4; 8; 16; 32; 64] /\
  0 <= vl <= vlenb * lmul8 / (8 * sew).
(** Effective LMUL (in eighths) of an operand of element width [w]; number of registers; legal
    register numbers. *)
Definition emul8 (sew lmul8 w : Z) : Z := lmul8 * w / sew.
Definition nregs (sew lmul8 w : Z) : Z := Z.max 1 (emul8 sew lmul8 w / 8).
Definition group (sew lmul8 w r : Z) : Prop :=
  In w [1; 2; 4; 8] /\ 1 <= emul8 sew lmul8 w <= 64 /\
  0 <= r /\ r + nregs sew lmul8 w <= 32 /\ r mod nregs sew lmul8 w = 0.
(** Permitted overlap of the destination group with a source group (section 5.2). *)
Definition overlap_ok (sew lmul8 wd vd ws rs : Z) : Prop :=
  let gd := nregs sew lmul8 wd in let gs := nregs sew lmul8 ws in
  rs + gs <= vd \/ vd + gd <= rs \/ (wd <= ws /\ rs = vd) \/
  (ws < wd /\ 8 <= emul8 sew lmul8 ws /\ rs + gs = vd + gd).

(** A legal instance of instruction [I]. *)
Definition legal (vlenb sew lmul8 vl : Z) (I : vinst) : Prop :=
  let '(wd, w2, w1) := widths (vi_op I) sew in
  config vlenb sew lmul8 vl /\
  match vi_op I with Vzext k | Vsext k => In k [2; 4; 8] /\ k <= sew | _ => True end /\
  group sew lmul8 wd (vi_vd I) /\ group sew lmul8 w2 (vi_vs2 I) /\ overlap_ok sew lmul8 wd (vi_vd I) w2 (vi_vs2 I) /\
  (if has_src1 (vi_op I) then
     match vi_src1 I with
     | Vec r => group sew lmul8 w1 r /\ overlap_ok sew lmul8 wd (vi_vd I) w1 r
     | Scalar _ => True end
   else True) /\
  (vi_vm I = false -> vi_vd I <> 0) /\
  match vi_op I with Vadc | Vsbc => vi_vm I = false | _ => True end.

(** The operand elements of element [j] and the v0 bit (true when unmasked). *)
Definition src1_elem (vlenb : Z) (rf : mem) (w : Z) (s : src) (j : Z) : Z :=
  match s with Vec r => elem vlenb rf r w j | Scalar x => wrap (8 * w) x end.
Definition mbit (vlenb : Z) (rf : mem) (I : vinst) (j : Z) : bool := vi_vm I || vbit vlenb rf 0 j.
(** Body elements that are written. *)
Definition active (vlenb vstart vl : Z) (rf : mem) (I : vinst) (j : Z) : Prop :=
  vstart <= j < vl /\ (uses_carry (vi_op I) || mbit vlenb rf I j) = true.

(** The effect on the register file and vxsat: each active element of vd gets the value of its
    operands before the instruction; every other byte (prestart, masked off, tail, other registers) is
    unchanged; vxsat is set iff it was set or some active element saturated. *)
Definition elementwise (vlenb sew rm vstart vl : Z) (I : vinst) (rf rf' : mem) (s s' : bool) : Prop :=
  let '(wd, w2, w1) := widths (vi_op I) sew in
  exists sat : Z -> bool,
    (forall j, active vlenb vstart vl rf I j ->
       vrel (vi_op I) (8 * sew) rm (mbit vlenb rf I j)
         (elem vlenb rf (vi_vs2 I) w2 j) (src1_elem vlenb rf w1 (vi_src1 I) j)
         (elem vlenb rf (vi_vd I) wd j) (elem vlenb rf' (vi_vd I) wd j) (sat j)) /\
    (forall a, (forall j, active vlenb vstart vl rf I j -> ~ in_elem vlenb (vi_vd I) wd j a) -> rf' a = rf a) /\
    (s' = true <-> s = true \/ exists j, active vlenb vstart vl rf I j /\ sat j = true).

(** C37: the fixed-point instructions as "exact value / 2^shift, rounded, then saturated or wrapped":
    numerator, shift, signedness of the result, and whether it saturates. *)
Definition fixed_ops : list vop :=
  [Vsaddu; Vsadd; Vssubu; Vssub; Vaaddu; Vaadd; Vasubu; Vasub; Vsmul; Vssrl; Vssra; Vnclipu; Vnclip].
Definition fx_num (o : vop) (b x y : Z) : Z :=
  match o with
  | Vsaddu | Vaaddu => x + y | Vssubu | Vasubu => x - y
  | Vsadd | Vaadd => sgn b x + sgn b y | Vssub | Vasub => sgn b x - sgn b y
  | Vsmul => sgn b x * sgn b y | Vssrl | Vnclipu => x | Vssra => sgn b x | Vnclip => sgn (2 * b) x | _ => 0 end.
Definition fx_shift (o : vop) (b y : Z) : Z :=
  match o with
  | Vaaddu | Vaadd | Vasubu | Vasub => 1 | Vsmul => b - 1
  | Vssrl | Vssra => y mod b | Vnclipu | Vnclip => y mod (2 * b) | _ => 0 end.
Definition fx_signed (o : vop) : bool :=
  match o with Vsadd | Vssub | Vaadd | Vasub | Vsmul | Vssra | Vnclip => true | _ => false end.
(** vasub(u) wraps (section 12.2); everything else saturates, or never leaves the range. *)
Definition fx_wraps (o : vop) : bool := match o with Vasub | Vasubu => true | _ => false end.
Definition fx_result (o : vop) (b rm x y : Z) : Z * bool :=
  let v := roundoff rm (fx_num o b x y) (fx_shift o b y) in
  if fx_wraps o then (wrap b v, false) else
  let (lo, hi) := if fx_signed o then (- 2 ^ (b - 1), 2 ^ (b - 1) - 1) else (0, 2 ^ b - 1) in
  if v <? lo then (wrap b lo, true) else if hi <? v then (wrap b hi, true) else (wrap b v, false).

(** The 5-bit immediate of the .vi forms: unsigned for shift amounts, otherwise sign-extended; the
    immediate of vror.vi has 6 bits. *)
Definition imm_unsigned (o : vop) : bool :=
  match o with Vsll | Vsrl | Vsra | Vssrl | Vssra | Vnsrl | Vnsra | Vnclipu | Vnclip | Vror | Vwsll => true | _ => false end.
Definition imm_bits (o : vop) : Z := match o with Vror => 6 | _ => 5 end.
Definition has_vi (o : vop) : bool :=
  match o with
  | Vadd | Vrsub | Vand | Vor | Vxor | Vadc | Vmerge | Vsaddu | Vsadd | Vsll | Vsrl | Vsra | Vssrl | Vssra
  | Vnsrl | Vnsra | Vnclipu | Vnclip | Vror | Vwsll => true | _ => false end.
Definition imm_spec (o : vop) (raw : Z) : Z := if imm_unsigned o then wrap (imm_bits o) raw else sgn 5 raw.

Example roundoff_rnu : roundoff 0 (-5) 1 = -2. Proof. reflexivity. Qed.
Example roundoff_rne : roundoff 1 5 1 = 2 /\ roundoff 1 7 1 = 4. Proof. split; reflexivity. Qed.
Example roundoff_rod : roundoff 3 9 2 = 3 /\ roundoff 3 8 2 = 2. Proof. split; reflexivity. Qed.
