(** IEEE 754 binary formats: encoding, values and arithmetic.  After IEEE 754-2008 and the RISC-V
    "F", "D" and "Zfh" extensions (canonical NaN results, tininess after rounding).  Nothing here
    refers to the model.  All finite values of a format are integer multiples of one smallest
    quantum, so values are compared and combined as integers. *)
From Coq Require Import ZArith Bool.
From Verif Require Import Bits.
Local Open Scope Z_scope.

(** A format: exponent and fraction widths. *)
Record fmt := { ew : Z; sw : Z }.
Definition half := {| ew := 5; sw := 10 |}.
Definition single := {| ew := 8; sw := 23 |}.
Definition double := {| ew := 11; sw := 52 |}.
Definition width (f : fmt) : Z := 1 + ew f + sw f.
Definition bias (f : fmt) : Z := 2 ^ (ew f - 1) - 1.
(** The quantum is 2 ^ (- quantum f). *)
Definition quantum (f : fmt) : Z := bias f + sw f - 1.

(** Fields of a bit pattern. *)
Definition sign (f : fmt) (x : Z) : bool := Z.testbit x (width f - 1).
Definition expo (f : fmt) (x : Z) : Z := x / 2 ^ sw f mod 2 ^ ew f.
Definition frac (f : fmt) (x : Z) : Z := x mod 2 ^ sw f.

(** Kinds of data. *)
Definition special (f : fmt) (x : Z) : bool := expo f x =? 2 ^ ew f - 1.
Definition is_nan (f : fmt) (x : Z) : bool := special f x && negb (frac f x =? 0).
Definition is_snan (f : fmt) (x : Z) : bool := is_nan f x && negb (Z.testbit x (sw f - 1)).
Definition is_inf (f : fmt) (x : Z) : bool := special f x && (frac f x =? 0).
Definition is_finite (f : fmt) (x : Z) : bool := negb (special f x).
Definition is_zero (f : fmt) (x : Z) : bool := (expo f x =? 0) && (frac f x =? 0).

(** Special patterns. *)
Definition with_sign (f : fmt) (s : bool) (m : Z) : Z := Z.b2z s * 2 ^ (width f - 1) + m.
Definition canonical_nan (f : fmt) : Z := (2 ^ ew f - 1) * 2 ^ sw f + 2 ^ (sw f - 1).
Definition infinity (f : fmt) (s : bool) : Z := with_sign f s ((2 ^ ew f - 1) * 2 ^ sw f).
Definition zero (f : fmt) (s : bool) : Z := with_sign f s 0.

(** The value of a finite pattern, in quanta.  (For an infinity this is a number larger than every
    finite value, so comparing [units] also orders the infinities.) *)
Definition magnitude (f : fmt) (x : Z) : Z :=
  if expo f x =? 0 then frac f x else (2 ^ sw f + frac f x) * 2 ^ (expo f x - 1).
Definition units (f : fmt) (x : Z) : Z := if sign f x then - magnitude f x else magnitude f x.

(** Flags. *)
Definition fNX := 1. Definition fUF := 2. Definition fOF := 4. Definition fDZ := 8. Definition fNV := 16.

(** Rounding the rational [n / d] to an integer: modes 0 RNE, 1 RTZ, 2 RDN, 3 RUP, 4 RMM. *)
Definition rounds (rm n d z : Z) : Prop :=
  match rm with
  | 0 => 2 * Z.abs (n - z * d) <= d /\ (2 * Z.abs (n - z * d) = d -> Z.even z = true)
  | 1 => if 0 <=? n then z * d <= n < (z + 1) * d else (z - 1) * d < n <= z * d
  | 2 => z * d <= n < (z + 1) * d
  | 3 => (z - 1) * d < n <= z * d
  | 4 => 2 * Z.abs (n - z * d) <= d /\ (2 * Z.abs (n - z * d) = d -> Z.abs n < Z.abs (z * d))
  | _ => False end.

(** ** Arithmetic (C70 and later): the exact result, rounded once *)

(** A magnitude [p / r] rounded to an integer, for a number of sign [s]. *)
Definition round_mag (rm : Z) (s : bool) (p r : Z) : Z :=
  let k := p / r in
  let rest := p mod r in
  let up :=
    match rm with
    | 0 => (r <? 2 * rest) || ((r =? 2 * rest) && Z.odd k)
    | 1 => false
    | 2 => s && (0 <? rest)
    | 3 => negb s && (0 <? rest)
    | _ => r <=? 2 * rest end in
  if up then k + 1 else k.

(** The largest [e] with 2^e <= p / r. *)
Definition floor_log2 (p r : Z) : Z :=
  let e := Z.log2 p - Z.log2 r in
  if p * 2 ^ Z.max 0 (- e) <? r * 2 ^ Z.max 0 e then e - 1 else e.

(** [scaled rm s p r u]: p / r in units of 2^u, rounded; and whether that was exact. *)
Definition scaled (rm : Z) (s : bool) (p r u : Z) : Z * bool :=
  let p' := p * 2 ^ Z.max 0 (- u) in
  let r' := r * 2 ^ Z.max 0 u in
  (round_mag rm s p' r', p' mod r' =? 0).

(** The nonzero rational [(-1)^s * p / r] rounded to format [f]: pattern and flags. *)
Definition round_to (f : fmt) (rm : Z) (s : bool) (p r : Z) : Z * Z :=
  let e := floor_log2 p r in
  let u := Z.max (e - sw f) (- quantum f) in
  let (m, exact) := scaled rm s p r u in
  let pattern := (u + quantum f) * 2 ^ sw f + m in
  if (2 ^ ew f - 1) * 2 ^ sw f <=? pattern then
    let to_inf := match rm with 1 => false | 2 => s | 3 => negb s | _ => true end in
    (with_sign f s (if to_inf then (2 ^ ew f - 1) * 2 ^ sw f else (2 ^ ew f - 1) * 2 ^ sw f - 1),
     fOF + fNX)
  else
    let tiny := (e <? 1 - bias f) &&
                negb ((e =? - bias f) && (fst (scaled rm s p r (e - sw f)) =? 2 ^ (sw f + 1))) in
    (with_sign f s pattern, if exact then 0 else if tiny then fUF + fNX else fNX).

(** The rational [n / d], d > 0; an exact zero gets sign [zs]. *)
Definition round_rat (f : fmt) (rm : Z) (n d : Z) (zs : bool) : Z * Z :=
  if n =? 0 then (zero f zs, 0) else round_to f rm (n <? 0) (Z.abs n) d.

Definition invalid (f : fmt) : Z * Z := (canonical_nan f, fNV).
(** A NaN operand gives the canonical NaN, and NV if one operand is signaling. *)
Definition nan_result (f : fmt) (snan : bool) : Z * Z := (canonical_nan f, if snan then fNV else 0).

(** The sign of an exact zero sum of terms with signs [sa] and [sb]. *)
Definition zero_sum_sign (rm : Z) (sa sb : bool) : bool := if Bool.eqb sa sb then sa else rm =? 2.

Definition flip (f : fmt) (x : Z) : Z := Z.lxor x (2 ^ (width f - 1)).

Definition ieee_add (f : fmt) (rm a b : Z) : Z * Z :=
  if is_nan f a || is_nan f b then nan_result f (is_snan f a || is_snan f b)
  else if is_inf f a then
    if is_inf f b && negb (Bool.eqb (sign f a) (sign f b)) then invalid f else (a, 0)
  else if is_inf f b then (b, 0)
  else round_rat f rm (units f a + units f b) (2 ^ quantum f) (zero_sum_sign rm (sign f a) (sign f b)).
(** a - b = a + (-b), except that the NaN test sees the same NaN. *)
Definition ieee_sub (f : fmt) (rm a b : Z) : Z * Z := ieee_add f rm a (flip f b).

Definition ieee_mul (f : fmt) (rm a b : Z) : Z * Z :=
  let s := xorb (sign f a) (sign f b) in
  if is_nan f a || is_nan f b then nan_result f (is_snan f a || is_snan f b)
  else if (is_inf f a && is_zero f b) || (is_zero f a && is_inf f b) then invalid f
  else if is_inf f a || is_inf f b then (infinity f s, 0)
  else round_rat f rm (units f a * units f b) (2 ^ (2 * quantum f)) s.

Definition ieee_div (f : fmt) (rm a b : Z) : Z * Z :=
  let s := xorb (sign f a) (sign f b) in
  if is_nan f a || is_nan f b then nan_result f (is_snan f a || is_snan f b)
  else if (is_inf f a && is_inf f b) || (is_zero f a && is_zero f b) then invalid f
  else if is_inf f a then (infinity f s, 0)
  else if is_inf f b then (zero f s, 0)
  else if is_zero f b then (infinity f s, fDZ)
  else round_rat f rm (if s then - magnitude f a else magnitude f a) (magnitude f b) s.

(** The square root is rounded from a floor approximation with more than enough extra bits and a
    sticky bit. *)
Definition ieee_sqrt (f : fmt) (rm a : Z) : Z * Z :=
  if is_nan f a then nan_result f (is_snan f a)
  else if is_zero f a then (a, 0)
  else if sign f a then invalid f
  else if is_inf f a then (a, 0)
  else
    let k := sw f + 4 in
    let x := magnitude f a * 2 ^ (quantum f + 2 * k) in
    let r := Z.sqrt x in
    round_rat f rm (2 * r + (if r * r =? x then 0 else 1)) (2 ^ (quantum f + k + 1)) false.

(** a * b + c, rounded once. *)
Definition ieee_fma (f : fmt) (rm a b c : Z) : Z * Z :=
  let s := xorb (sign f a) (sign f b) in
  let inf_zero := (is_inf f a && is_zero f b) || (is_zero f a && is_inf f b) in
  if is_nan f a || is_nan f b || is_nan f c then
    nan_result f (is_snan f a || is_snan f b || is_snan f c || inf_zero)
  else if inf_zero then invalid f
  else if is_inf f a || is_inf f b then
    if is_inf f c && negb (Bool.eqb s (sign f c)) then invalid f else (infinity f s, 0)
  else if is_inf f c then (c, 0)
  else round_rat f rm (units f a * units f b + units f c * 2 ^ quantum f) (2 ^ (2 * quantum f))
         (zero_sum_sign rm s (sign f c)).

(** Conversion between formats and from integers. *)
Definition ieee_cvt (f g : fmt) (rm a : Z) : Z * Z :=
  if is_nan f a then nan_result g (is_snan f a)
  else if is_inf f a then (infinity g (sign f a), 0)
  else round_rat g rm (units f a) (2 ^ quantum f) (sign f a).
Definition ieee_of_int (g : fmt) (rm n : Z) : Z * Z := round_rat g rm n 1 false.
