(** Specification of the floating-point instructions with a rounded floating-point result (C70-C72):
    the exact result of the operands, rounded once in the given mode, with the flags IEEE 754 raises.
    After the RISC-V "F", "D" and "Zfh" chapters.  Nothing here refers to the model. *)
From Coq Require Import ZArith Bool List.
From Verif Require Import Bits IeeeSpec FpSpec.
Import ListNotations.
Local Open Scope Z_scope.

(** [AFma f np na]: +-(a * b) +- c; np: the product is negated (fnmadd, fnmsub), na: the addend is
    (fmsub, fnmadd).  [ANarrow f g]: to the narrower format g.  [AOfInt f sg w]: from a (sg: signed)
    integer of w bits. *)
Inductive ainst :=
| AAdd (f : fmt) | ASub (f : fmt) | AMul (f : fmt) | ADiv (f : fmt) | ASqrt (f : fmt)
| AFma (f : fmt) (np na : bool) | ANarrow (f g : fmt) | AOfInt (f : fmt) (sg : bool) (w : Z).

(** The format of the result. *)
Definition a_fmt (I : ainst) : fmt :=
  match I with
  | AAdd f | ASub f | AMul f | ADiv f | ASqrt f | AFma f _ _ | AOfInt f _ _ => f
  | ANarrow _ g => g end.

(** Negated or not. *)
Definition opt_flip (f : fmt) (b : bool) (x : Z) : Z := if b then flip f x else x.

(** Pattern and flags, for the contents [a], [b], [c] of the source registers. *)
Definition a_result (I : ainst) (mode a b c : Z) : Z * Z :=
  match I with
  | AAdd f => ieee_add f mode (unbox f a) (unbox f b)
  | ASub f => ieee_sub f mode (unbox f a) (unbox f b)
  | AMul f => ieee_mul f mode (unbox f a) (unbox f b)
  | ADiv f => ieee_div f mode (unbox f a) (unbox f b)
  | ASqrt f => ieee_sqrt f mode (unbox f a)
  | AFma f np na =>
      ieee_fma f mode (opt_flip f np (unbox f a)) (unbox f b) (opt_flip f na (unbox f c))
  | ANarrow f g => ieee_cvt f g mode (unbox f a)
  | AOfInt f sg w => ieee_of_int f mode (if sg then sgn w a else wrap w a) end.

Definition a_correct (I : ainst) (mode a b c d fl : Z) : Prop :=
  d = box (a_fmt I) (fst (a_result I mode a b c)) /\ fl = snd (a_result I mode a b c).

(** ** The host *)

(** The host operations on float and double the simulator is built on (+, -, *, /, sqrt, fma, the
    conversions between the formats and from integers); the first [Z] is the host rounding mode, 0 to 3
    numbered as above.  Result: pattern and flags raised. *)
Record host := {
  h_add : fmt -> Z -> Z -> Z -> Z * Z;
  h_sub : fmt -> Z -> Z -> Z -> Z * Z;
  h_mul : fmt -> Z -> Z -> Z -> Z * Z;
  h_div : fmt -> Z -> Z -> Z -> Z * Z;
  h_sqrt : fmt -> Z -> Z -> Z * Z;
  h_fma : fmt -> Z -> Z -> Z -> Z -> Z * Z;
  h_cvt : fmt -> fmt -> Z -> Z -> Z * Z;
  h_int : fmt -> Z -> Z -> Z * Z }.

(** Same flags and same datum; which NaN is up to the host. *)
Definition like (f : fmt) (r s : Z * Z) : Prop :=
  snd r = snd s /\ 0 <= fst r < 2 ^ width f /\
  (if is_nan f (fst s) then is_nan f (fst r) = true else fst r = fst s).

(** The host follows IEEE 754 (tininess detected after rounding) in its four rounding modes. *)
Definition host_ok (H : host) : Prop :=
  forall f rm a b c, f = single \/ f = double -> 0 <= rm <= 3 ->
    0 <= a < 2 ^ width f -> 0 <= b < 2 ^ width f -> 0 <= c < 2 ^ width f ->
    like f (h_add H f rm a b) (ieee_add f rm a b) /\
    like f (h_sub H f rm a b) (ieee_sub f rm a b) /\
    like f (h_mul H f rm a b) (ieee_mul f rm a b) /\
    like f (h_div H f rm a b) (ieee_div f rm a b) /\
    like f (h_sqrt H f rm a) (ieee_sqrt f rm a) /\
    like f (h_fma H f rm a b c) (ieee_fma f rm a b c) /\
    (forall g, g = single \/ g = double -> like g (h_cvt H f g rm a) (ieee_cvt f g rm a)) /\
    (forall n, - 2 ^ 63 <= n < 2 ^ 64 -> like f (h_int H f rm n) (ieee_of_int f rm n)).

(** ** Conditions under which the double-precision fused multiply-adds are right *)

(** No signaling NaN; if the product and c are zeros, not opposite signs in mode RDN, and for fnmsub c
    not -0; for fnmadd and fnmsub with finite operands and c not zero, a symmetric rounding mode and an
    exact sum that is not zero. *)
Definition fma_safe (np na : bool) (mode a b c : Z) : Prop :=
  is_snan double a = false /\ is_snan double b = false /\ is_snan double c = false /\
  (is_zero double c = true -> is_zero double a = true \/ is_zero double b = true ->
     (mode <> 2 \/ xorb np (xorb (sign double a) (sign double b)) = xorb na (sign double c)) /\
     (np = true -> na = false -> sign double c = false)) /\
  (np = true -> is_zero double c = false -> is_finite double a = true -> is_finite double b = true -> is_finite double c = true ->
     (mode = 0 \/ mode = 1) /\
     units double (opt_flip double np a) * units double b + units double (opt_flip double na c) * 2 ^ quantum double <> 0).
