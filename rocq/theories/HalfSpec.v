(** Specification of the half-precision instructions with a rounded result (C77, C78), beyond
    [a_correct] of FarithSpec.  Nothing here refers to the model. *)
From Coq Require Import ZArith Bool.
From Verif Require Import Bits IeeeSpec FpSpec FarithSpec.
Local Open Scope Z_scope.

(** Flags as the manual wants them, except that UF may be raised although it should not when an inexact
    result is rounded to +-2^-14, the smallest normal number. *)
Definition flags_but_underflow (v fl spec_fl : Z) : Prop :=
  fl = spec_fl \/ ((v = 0x0400 \/ v = 0x8400) /\ fl = Z.lor fUF fNX /\ spec_fl = fNX).

(** The destination holds the properly boxed, correctly rounded result. *)
Definition half_conv_correct (I : ainst) (mode a d fl : Z) : Prop :=
  d = box half (fst (a_result I mode a 0 0)) /\ flags_but_underflow (wrap 16 d) fl (snd (a_result I mode a 0 0)).

(** The low 16 bits of the destination hold the correctly rounded result. *)
Definition half_low_correct (I : ainst) (mode a b c d fl : Z) : Prop :=
  wrap 16 d = fst (a_result I mode a b c) /\ flags_but_underflow (wrap 16 d) fl (snd (a_result I mode a b c)).

(** The host's arithmetic never returns a signaling NaN (IEEE 754 6.2). *)
Definition host_quiet (H : host) : Prop :=
  forall f rm a b c, f = single \/ f = double -> 0 <= rm <= 3 ->
    0 <= a < 2 ^ width f -> 0 <= b < 2 ^ width f -> 0 <= c < 2 ^ width f ->
    is_snan f (fst (h_add H f rm a b)) = false /\ is_snan f (fst (h_sub H f rm a b)) = false /\
    is_snan f (fst (h_mul H f rm a b)) = false /\ is_snan f (fst (h_div H f rm a b)) = false /\
    is_snan f (fst (h_fma H f rm a b c)) = false /\ is_snan f (fst (h_sqrt H f rm a)) = false.
