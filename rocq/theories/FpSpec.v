(** Specification of the floating-point instructions that do not compute a rounded floating-point
    result: NaN boxing (C28), fclass (C29), min/max/sign injection/compare (C30), conversion to
    integers (C31), half to wider formats (C32).  After the RISC-V "F", "D", "Zfh" chapters.  Nothing
    here refers to the model. *)
From Coq Require Import ZArith Bool List.
From Verif Require Import Bits IeeeSpec.
Import ListNotations.
Local Open Scope Z_scope.

(** Floating-point registers have 64 bits.  A narrower value is kept with all upper bits set; a
    register not of that form reads as the canonical NaN of the narrow format. *)
Definition FLEN := 64.
Definition boxed (f : fmt) (r : Z) : bool := r / 2 ^ width f =? 2 ^ (FLEN - width f) - 1.
Definition box (f : fmt) (v : Z) : Z := (2 ^ (FLEN - width f) - 1) * 2 ^ width f + v.
Definition unbox (f : fmt) (r : Z) : Z := if boxed f r then r mod 2 ^ width f else canonical_nan f.

Inductive injection := Copy | Negate | Xor.

(** The instructions.  [FCvtInt f sg w]: format f to a (sg: signed) integer of w bits.  [FWiden f g]:
    from format f to the wider format g.  [FLoad f c]: the register result of flh/flw/fld (c: of the
    compressed c.flw, c.flwsp, c.fld, c.fldsp) for the loaded bits. *)
Inductive finst :=
| FMin (f : fmt) | FMax (f : fmt) | FSgnj (f : fmt) (k : injection)
| FEq (f : fmt) | FLt (f : fmt) | FLe (f : fmt) | FClass (f : fmt)
| FCvtInt (f : fmt) (sg : bool) (w : Z) | FWiden (f g : fmt)
| FMvXF (f : fmt) | FMvFX (f : fmt) | FLoad (f : fmt) (compressed : bool).

(** The smaller and the larger of two data that are not NaN, -0 before +0. *)
Definition below (f : fmt) (a b : Z) : bool :=
  (units f a <? units f b) || ((units f a =? units f b) && sign f a).
Definition min_max (f : fmt) (pick_low : bool) (a b : Z) : Z :=
  if is_nan f a then if is_nan f b then canonical_nan f else b
  else if is_nan f b then a
  else if Bool.eqb pick_low (below f a b) then a else b.

Definition either_snan (f : fmt) (a b : Z) : bool := is_snan f a || is_snan f b.
Definition either_nan (f : fmt) (a b : Z) : bool := is_nan f a || is_nan f b.
Definition nv (b : bool) : Z := if b then fNV else 0.

(** The class of a datum: the number of the single bit fclass sets. *)
Definition class_bit (f : fmt) (x : Z) : Z :=
  if is_nan f x then if is_snan f x then 8 else 9
  else if is_inf f x then if sign f x then 0 else 7
  else if is_zero f x then if sign f x then 3 else 4
  else if expo f x =? 0 then if sign f x then 2 else 5
  else if sign f x then 1 else 6.

(** Sign injection: the sign bit of the result. *)
Definition inject (f : fmt) (k : injection) (a b : Z) : Z :=
  let s := match k with
           | Copy => sign f b | Negate => negb (sign f b) | Xor => xorb (sign f a) (sign f b) end in
  with_sign f s (a mod 2 ^ (width f - 1)).

(** Integer ranges, and the pattern of an integer result in an x register of [xl] bits: results
    narrower than the register are sign-extended, also those of the unsigned conversions. *)
Definition int_min (sg : bool) (w : Z) : Z := if sg then - 2 ^ (w - 1) else 0.
Definition int_max (sg : bool) (w : Z) : Z := if sg then 2 ^ (w - 1) - 1 else 2 ^ w - 1.
Definition x_result (xl w v : Z) : Z := wrap xl (sgn w v).

(** Conversion to an integer: value [v] and flags. *)
Definition to_int (f : fmt) (sg : bool) (w rm a : Z) (v fl : Z) : Prop :=
  if is_nan f a then v = int_max sg w /\ fl = fNV
  else if is_inf f a then v = (if sign f a then int_min sg w else int_max sg w) /\ fl = fNV
  else exists z, rounds rm (units f a) (2 ^ quantum f) z /\
    if z <? int_min sg w then v = int_min sg w /\ fl = fNV
    else if int_max sg w <? z then v = int_max sg w /\ fl = fNV
    else v = z /\ fl = (if z * 2 ^ quantum f =? units f a then 0 else fNX).

(** n / d lies exactly between two integers. *)
Definition tie (n d : Z) : Prop := exists k, 2 * n = (2 * k + 1) * d.
(** The rounded value is not the smallest integer of the type (nor, for 64 bits, below -2^64). *)
Definition no_overflow (f : fmt) (sg : bool) (w rm a : Z) : Prop :=
  sg = true -> is_finite f a = true -> forall z, rounds rm (units f a) (2 ^ quantum f) z ->
  z <> - 2 ^ (w - 1) /\ (w = 64 -> - 2 ^ 64 < z).

(** Conversion to a wider format keeps the value: same sign, same kind, same number (the quanta of
    the two formats are 2 ^ - quantum). *)
Definition widened (f g : fmt) (a r fl : Z) : Prop :=
  fl = nv (is_snan f a) /\ 0 <= r < 2 ^ width g /\
  if is_nan f a then r = canonical_nan g
  else sign g r = sign f a /\ is_inf g r = is_inf f a /\ is_nan g r = false /\
       (is_inf f a = false -> units g r = units f a * 2 ^ (quantum g - quantum f)).

(** The register result and the flags raised; [xl]: 32 or 64; [a], [b]: contents of the source
    registers (for FLoad the loaded bits); [rm]: the rounding mode. *)
Definition correct (xl : Z) (I : finst) (rm a b : Z) (d fl : Z) : Prop :=
  match I with
  | FMin f => d = box f (min_max f true (unbox f a) (unbox f b)) /\ fl = nv (either_snan f (unbox f a) (unbox f b))
  | FMax f => d = box f (min_max f false (unbox f a) (unbox f b)) /\ fl = nv (either_snan f (unbox f a) (unbox f b))
  | FSgnj f k => d = box f (inject f k (unbox f a) (unbox f b)) /\ fl = 0
  | FEq f => d = Z.b2z (negb (either_nan f (unbox f a) (unbox f b)) && (units f (unbox f a) =? units f (unbox f b)))
             /\ fl = nv (either_snan f (unbox f a) (unbox f b))
  | FLt f => d = Z.b2z (negb (either_nan f (unbox f a) (unbox f b)) && (units f (unbox f a) <? units f (unbox f b)))
             /\ fl = nv (either_nan f (unbox f a) (unbox f b))
  | FLe f => d = Z.b2z (negb (either_nan f (unbox f a) (unbox f b)) && (units f (unbox f a) <=? units f (unbox f b)))
             /\ fl = nv (either_nan f (unbox f a) (unbox f b))
  | FClass f => d = 2 ^ class_bit f (unbox f a) /\ fl = 0
  | FCvtInt f sg w => exists v, to_int f sg w rm (unbox f a) v fl /\ d = x_result xl w v
  | FWiden f g => exists r, widened f g (unbox f a) r fl /\ d = box g r
  | FMvXF f => d = wrap xl (sgn (width f) (a mod 2 ^ width f)) /\ fl = 0
  | FMvFX f => d = box f (a mod 2 ^ width f) /\ fl = 0
  | FLoad f _ => d = box f (a mod 2 ^ width f) /\ fl = 0 end.

Definition formats : list fmt := [half; single; double].
(** The instructions that exist. *)
Definition exists_in (xl : Z) (I : finst) : Prop :=
  (xl = 32 \/ xl = 64) /\
  match I with
  | FMin f | FMax f | FSgnj f _ | FEq f | FLt f | FLe f | FClass f => In f formats
  | FLoad f c => if c then f = double \/ f = single /\ xl = 32 else In f formats
  | FCvtInt f _ w => In f formats /\ (w = 32 \/ w = 64 /\ xl = 64)
  | FWiden f g => In (f, g) [(half, single); (half, double); (single, double)]
  | FMvXF f | FMvFX f => f = half \/ f = single \/ f = double /\ xl = 64 end.
