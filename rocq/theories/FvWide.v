(** The widening floating-point operations: conversion to double and the product of two converted singles are
    exact, so the two-step multiply-accumulate rounds once. *)
From Coq Require Import ZArith Bool List Lia.
From Verif Require Import Bits IeeeSpec FpSpec FarithSpec FpModel FarithModel FpProofs FpCvt FpWiden FarithProofs HalfProofs HalfConv RoundProofs RoundTwice HalfArith FvSpec FvModel.
Import ListNotations.
Local Open Scope Z_scope.

Lemma ok_double : okf double.
Proof. split; cbn; lia. Qed.

(** ** Patterns of finite numbers *)
Lemma finite_pattern : forall f s Q, okf f -> 0 <= Q < top f -> let d := with_sign f s Q in
  0 <= d < 2 ^ width f /\ is_nan f d = false /\ is_inf f d = false /\ sign f d = s /\ magnitude f d = val f Q.
Proof.
  intros f s Q Ok HQ d. pose proof Ok as [He Hs]. destruct (top_range f Ok) as (T1 & T2 & T3).
  assert (SP : 0 < 2 ^ sw f) by (apply pow2_pos; lia).
  assert (WW : 2 ^ (width f - 1) = 2 ^ ew f * 2 ^ sw f) by (rewrite <- Z.pow_add_r by lia; f_equal; unfold width; lia).
  pose proof (Z.div_mod Q (2 ^ sw f) ltac:(lia)) as D. pose proof (Z.mod_pos_bound Q _ SP) as M.
  assert (EQ : 0 <= Q / 2 ^ sw f < 2 ^ ew f - 1).
  { split; [apply Z.div_pos; lia | apply Z.div_lt_upper_bound; [lia |]]. unfold top in HQ. clear - HQ. lia. }
  destruct (fields f s (Q / 2 ^ sw f) (Q mod 2 ^ sw f) Ok ltac:(clear - EQ; lia) M) as (F1 & F2 & F3 & F4).
  rewrite (Z.mul_comm (Q / _)), <- D in F1, F2, F3, F4. fold d in F1, F2, F3, F4.
  assert (SPC : special f d = false) by (unfold special; rewrite F2; apply Z.eqb_neq; clear - EQ; lia).
  split; [exact F4 |]. split; [unfold is_nan; rewrite SPC; reflexivity |]. split; [unfold is_inf; rewrite SPC; reflexivity |].
  split; [exact F1 |]. apply val_magnitude; [exact Ok | clear - HQ T2; lia].
Qed.

(** The facts about an exactly represented quotient. *)
Definition exact_as (f : fmt) (n d : Z) (zs : bool) (r : Z * Z) : Prop :=
  snd r = 0 /\ 0 <= fst r < 2 ^ width f /\ is_nan f (fst r) = false /\ is_inf f (fst r) = false /\
  units f (fst r) * d = n * 2 ^ quantum f /\ sign f (fst r) = if n =? 0 then zs else n <? 0.

Lemma exact_rat : forall f rm n d zs k j, okf f -> 0 < d -> 0 <= k < 2 ^ (sw f + 1) -> 0 <= j ->
  Z.abs n * 2 ^ quantum f = k * 2 ^ j * d -> k * 2 ^ j < val f (top f) -> exact_as f n d zs (round_rat f rm n d zs).
Proof.
  intros f rm n d zs k j Ok Hd Hk Hj E UB. destruct (top_range f Ok) as (T1 & _). unfold round_rat, exact_as. destruct (Z.eqb_spec n 0) as [-> | N]; cbn [fst snd].
  - destruct (finite_pattern f zs 0 Ok ltac:(lia)) as (P1 & P2 & P3 & P4 & P5). fold (zero f zs) in P1, P2, P3, P4, P5.
    split; [reflexivity |]. split; [exact P1 |]. split; [exact P2 |]. split; [exact P3 |]. split; [| exact P4].
    assert (V : val f 0 = 0).
    { rewrite <- (val_magnitude f false 0 Ok ltac:(destruct (top_range f Ok) as (? & ? & ?); lia)).
      change (with_sign f false 0) with 0. apply magnitude_0; exact Ok. }
    unfold units. rewrite P4, P5, V. destruct zs; ring.
  - destruct (representable f k j Ok Hk Hj) as (Q & HQ & VQ). rewrite <- VQ in E, UB.
    assert (QT : Q < top f) by (apply (val_lt f); [exact Ok | exact HQ | lia | exact UB]).
    rewrite (round_to_rep f rm (n <? 0) (Z.abs n) d Q Ok ltac:(lia) Hd ltac:(lia) E). cbn [fst snd].
    destruct (finite_pattern f (n <? 0) Q Ok ltac:(lia)) as (P1 & P2 & P3 & P4 & P5).
    split; [reflexivity |]. split; [exact P1 |]. split; [exact P2 |]. split; [exact P3 |]. split; [| exact P4].
    unfold units. rewrite P4, P5. destruct (Z.ltb_spec n 0) as [L | L].
    + replace (Z.abs n) with (- n) in E by lia. clear - E. nia.
    + replace (Z.abs n) with n in E by lia. clear - E. nia.
Qed.

(** Finite singles. *)
Lemma single_parts : forall a, is_nan single a = false -> is_inf single a = false ->
  exists A al, 0 <= A < 2 ^ 24 /\ 0 <= al <= 253 /\ magnitude single a = A * 2 ^ al.
Proof.
  intros a N I. pose proof (special_of single a N I) as S. unfold special in S. apply Z.eqb_neq in S. change (2 ^ ew single - 1) with 255 in S.
  assert (ER : 0 <= expo single a < 256) by (unfold expo; cbn [ew sw single]; apply (Z.mod_pos_bound _ (2 ^ 8)); lia).
  assert (FR : 0 <= frac single a < 8388608) by (unfold frac; cbn [ew sw single]; apply (Z.mod_pos_bound a (2 ^ 23)); lia).
  unfold magnitude. change (2 ^ sw single) with 8388608. change (2 ^ 24) with 16777216. destruct (Z.eqb_spec (expo single a) 0).
  - exists (frac single a), 0. rewrite Z.pow_0_r. lia.
  - exists (8388608 + frac single a), (expo single a - 1). lia.
Qed.
Lemma abs_units : forall f a, okf f -> Z.abs (units f a) = magnitude f a.
Proof. intros f a Ok. pose proof (magnitude_nonneg f a Ok). unfold units. destruct (sign f a); lia. Qed.

Definition W := 2 ^ 925.
Lemma pow_bound : forall A a B b, 0 <= A < 2 ^ a -> 0 <= a -> 0 <= b <= B -> A * 2 ^ b < 2 ^ (a + B).
Proof.
  intros A a B b HA Ha Hb. rewrite Z.pow_add_r by lia. assert (0 < 2 ^ b <= 2 ^ B) by (split; [apply pow2_pos; lia | apply Z.pow_le_mono_r; lia]).
  apply Z.lt_le_trans with (2 ^ a * 2 ^ b); [apply Z.mul_lt_mono_pos_r; lia | apply Z.mul_le_mono_nonneg_l; lia].
Qed.
Lemma top_double : 2 ^ 2098 = val double (top double).
Proof. apply Z.eqb_eq. vm_compute. reflexivity. Qed.

(** To double. *)
Lemma cvt_wide : forall rm x, 0 <= x < 2 ^ 32 -> is_nan single x = false -> let d := fst (ieee_cvt single double rm x) in
  snd (ieee_cvt single double rm x) = 0 /\ 0 <= d < 2 ^ 64 /\ is_nan double d = false /\ sign double d = sign single x /\ is_inf double d = is_inf single x /\
  (is_inf single x = false -> units double d = units single x * W).
Proof.
  intros rm x Hx N d. unfold d, ieee_cvt. rewrite N. destruct (is_inf single x) eqn:I; cbn [fst snd].
  - assert (A : forall s, is_nan double (infinity double s) = false /\ 0 <= infinity double s < 2 ^ 64 /\ sign double (infinity double s) = s /\ is_inf double (infinity double s) = true).
    { intros []; vm_compute; repeat split; congruence. }
    destruct (A (sign single x)) as (A1 & A2 & A3 & A4). repeat split; try assumption; try apply A2. discriminate.
  - destruct (single_parts x N I) as (A & al & HA & Hal & M).
    assert (X : exact_as double (units single x) (2 ^ quantum single) (sign single x) (round_rat double rm (units single x) (2 ^ quantum single) (sign single x))).
    { apply (exact_rat double rm _ _ _ A (al + 925) ok_double).
      - reflexivity.
      - change (2 ^ (sw double + 1)) with (2 ^ 53). split; [apply HA | apply Z.lt_trans with (2 ^ 24); [apply HA | reflexivity]].
      - lia.
      - rewrite (abs_units single x ok_single), M. rewrite Z.pow_add_r by lia. change (2 ^ quantum double) with (2 ^ 925 * 2 ^ 149). change (2 ^ quantum single) with (2 ^ 149).
        generalize (2 ^ 925), (2 ^ 149), (2 ^ al). intros u v w. ring.
      - rewrite <- top_double. apply Z.lt_le_trans with (2 ^ (24 + (253 + 925))); [apply pow_bound; lia | apply Z.pow_le_mono_r; lia]. }
    destruct X as (X1 & X2 & X3 & X4 & X5 & X6). change (2 ^ width double) with (2 ^ 64) in X2.
    split; [exact X1 |]. split; [exact X2 |]. split; [exact X3 |].
    split.
    { rewrite X6. destruct (Z.eqb_spec (units single x) 0) as [Z0 | Z0]; [reflexivity |]. pose proof (magnitude_nonneg single x ok_single).
      unfold units in *. destruct (sign single x); [apply Z.ltb_lt | apply Z.ltb_ge]; lia. }
    split; [exact X4 |]. intros _. change (2 ^ quantum double) with (W * 2 ^ quantum single) in X5.
    assert (P : 0 < 2 ^ quantum single) by reflexivity. revert X5 P. generalize (2 ^ quantum single), W, (units double (fst (round_rat double rm (units single x) (2 ^ quantum single) (sign single x)))). clear.
    intros q w u E P. apply (Z.mul_reg_r _ _ q); [lia |]. rewrite E. ring.
Qed.

(** ** The product *)

(** [p] is the exact product of [a] and [b]. *)
Definition product (a b p : Z) : Prop :=
  0 <= p < 2 ^ 64 /\ is_nan double p = false /\ (is_inf double a && is_zero double b || is_zero double a && is_inf double b) = false /\
  is_inf double p = is_inf double a || is_inf double b /\ sign double p = xorb (sign double a) (sign double b) /\
  (is_inf double p = false -> units double p * 2 ^ quantum double = units double a * units double b).

Lemma product_flip : forall a b p, 0 <= a < 2 ^ 64 -> product a b p -> product (flip double a) b (flip double p).
Proof.
  intros a b p Ha (P1 & P2 & P3 & P4 & P5 & P6). change (2 ^ 64) with (2 ^ width double) in *.
  destruct (flip_facts double a ok_double Ha) as (A1 & _ & _ & _ & A5 & _ & A7 & A8 & _ & A10 & _).
  destruct (flip_facts double p ok_double P1) as (B1 & _ & _ & B4 & B5 & _ & B7 & B8 & _ & B10 & _).
  unfold product. rewrite A1, A7, A8, A10, B1, B5, B7, B10. split; [exact B4 |]. split; [exact P2 |]. split; [exact P3 |]. split; [exact P4 |].
  split; [rewrite P5; destruct (sign double a), (sign double b); reflexivity |]. intros I. specialize (P6 I). revert P6.
  generalize (2 ^ quantum double), (units double p), (units double a), (units double b). clear. intros q u v w E. nia.
Qed.

Lemma inf_pattern : forall f x, okf f -> 0 <= x < 2 ^ width f -> is_inf f x = true -> x = infinity f (sign f x).
Proof.
  intros f x Ok Hx I. destruct (pattern_of f x Ok Hx) as (s & E & F & HE & HF & Ex & A1 & A2 & A3 & A4).
  unfold is_inf, special in I. rewrite A2, A3 in I. apply andb_prop in I. destruct I as [I1 I2]. apply Z.eqb_eq in I1, I2.
  rewrite A1, Ex. unfold infinity. rewrite I1, I2, Z.add_0_r. reflexivity.
Qed.

Lemma rat_scale : forall f rm n d zs k, 0 < d -> 0 <= k -> round_rat f rm (n * 2 ^ k) (d * 2 ^ k) zs = round_rat f rm n d zs.
Proof.
  intros f rm n d zs k Hd Hk. assert (P : 0 < 2 ^ k) by (apply pow2_pos; exact Hk). unfold round_rat.
  destruct (Z.eqb_spec n 0) as [-> | N]; [reflexivity |]. replace (n * 2 ^ k =? 0) with false by (symmetry; apply Z.eqb_neq; clear - N P; nia).
  replace (n * 2 ^ k <? 0) with (n <? 0) by (clear - N P; destruct (Z.ltb_spec n 0), (Z.ltb_spec (n * 2 ^ k) 0); try reflexivity; nia).
  replace (Z.abs (n * 2 ^ k)) with (Z.abs n * 2 ^ k) by (rewrite Z.abs_mul, (Z.abs_eq (2 ^ k)) by lia; reflexivity).
  apply round_to_scale; [lia | exact Hd | exact Hk].
Qed.

(** Adding to an exact product is the fused operation. *)
Lemma add_product : forall rm a b p c, product a b p -> is_nan double a = false -> is_nan double b = false ->
  ieee_add double rm p c = ieee_fma double rm a b c.
Proof.
  intros rm a b p c (P1 & P2 & P3 & P4 & P5 & P6) NA NB. unfold ieee_add, ieee_fma. rewrite NA, NB, P2, P3. cbn [orb].
  destruct (is_nan double c) eqn:NC.
  { unfold is_snan. rewrite P2, NA, NB. cbn [andb orb]. rewrite orb_false_r. reflexivity. }
  rewrite <- P4, <- P5. destruct (is_inf double p) eqn:IP.
  { rewrite <- (inf_pattern double p ok_double P1 IP). reflexivity. }
  destruct (is_inf double c); [reflexivity |]. rewrite <- (P6 eq_refl).
  rewrite <- Z.mul_add_distr_r. replace (2 ^ (2 * quantum double)) with (2 ^ quantum double * 2 ^ quantum double) by (vm_compute; reflexivity).
  symmetry. apply rat_scale; [reflexivity | vm_compute; congruence].
Qed.

(** The product of two converted singles is exact, or NaN because of an infinity times a zero. *)
Lemma wide_product : forall rm rx ry x y, 0 <= x < 2 ^ 32 -> 0 <= y < 2 ^ 32 -> is_nan single x = false -> is_nan single y = false ->
  let a := fst (ieee_cvt single double rx x) in let b := fst (ieee_cvt single double ry y) in
  if is_inf double a && is_zero double b || is_zero double a && is_inf double b then ieee_mul double rm a b = invalid double
  else snd (ieee_mul double rm a b) = 0 /\ product a b (fst (ieee_mul double rm a b)).
Proof.
  intros rm rx ry x y Hx Hy Nx Ny a b. destruct (cvt_wide rx x Hx Nx) as (A1 & A2 & A3 & A4 & A5 & A6). destruct (cvt_wide ry y Hy Ny) as (B1 & B2 & B3 & B4 & B5 & B6).
  fold a in A1, A2, A3, A4, A5, A6. fold b in B1, B2, B3, B4, B5, B6. destruct (_ || _) eqn:IZ; unfold ieee_mul; rewrite A3, B3, IZ; cbn [orb]; [reflexivity |].
  destruct (is_inf double a || is_inf double b) eqn:I; cbn [fst snd].
  { split; [reflexivity |]. unfold product. rewrite IZ, I.
    assert (G : forall s, is_nan double (infinity double s) = false /\ 0 <= infinity double s < 2 ^ 64 /\ sign double (infinity double s) = s /\ is_inf double (infinity double s) = true).
    { intros []; vm_compute; repeat split; congruence. }
    destruct (G (xorb (sign double a) (sign double b))) as (G1 & G2 & G3 & G4). rewrite G1, G3, G4. repeat split; try apply G2. discriminate. }
  apply orb_false_iff in I. destruct I as [IA IB]. rewrite IA in A5. rewrite IB in B5. symmetry in A5, B5. specialize (A6 A5). specialize (B6 B5).
  destruct (single_parts x Nx A5) as (A & al & HA & Hal & MA). destruct (single_parts y Ny B5) as (B & be & HB & Hbe & MB).
  assert (X : exact_as double (units double a * units double b) (2 ^ (2 * quantum double)) (xorb (sign double a) (sign double b))
    (round_rat double rm (units double a * units double b) (2 ^ (2 * quantum double)) (xorb (sign double a) (sign double b)))).
  { apply (exact_rat double rm _ _ _ (A * B) (al + be + 776) ok_double).
    - reflexivity.
    - change (2 ^ (sw double + 1)) with 9007199254740992. change (2 ^ 24) with 16777216 in *. clear - HA HB. nia.
    - clear - Hal Hbe; lia.
    - rewrite A6, B6, !Z.abs_mul, !(abs_units single _ ok_single), MA, MB. change (Z.abs W) with W. rewrite (Z.pow_add_r 2 (al + be)), (Z.pow_add_r 2 al) by (clear - Hal Hbe; lia).
      replace (2 ^ (2 * quantum double)) with (2 ^ quantum double * 2 ^ (2 * 149) * 2 ^ 776) by (apply Z.eqb_eq; vm_compute; reflexivity).
      assert (E : W * W = 2 ^ 776 * (2 ^ (2 * 149) * 2 ^ 776)) by (apply Z.eqb_eq; vm_compute; reflexivity). revert E.
      generalize W, (2 ^ quantum double), (2 ^ al), (2 ^ be), (2 ^ 776), (2 ^ (2 * 149)). clear. intros w q u v s t E.
      replace (A * u * w * (B * v * w) * q) with (A * u * (B * v) * (w * w) * q) by ring. rewrite E. ring.
    - rewrite <- top_double. apply Z.lt_le_trans with (2 ^ (48 + (253 + 253 + 776))); [apply pow_bound | apply Z.pow_le_mono_r; clear; lia]; [| clear; lia | clear - Hal Hbe; lia].
      change (2 ^ 24) with 16777216 in *. change (2 ^ 48) with 281474976710656. clear - HA HB. nia. }
  destruct X as (X1 & X2 & X3 & X4 & X5 & X6). split; [exact X1 |].
  set (p := round_rat double rm (units double a * units double b) (2 ^ (2 * quantum double)) (xorb (sign double a) (sign double b))) in *.
  unfold product. split; [exact X2 |]. split; [exact X3 |]. split; [exact IZ |]. split; [rewrite IA, IB; exact X4 |]. split.
  - rewrite X6. destruct (Z.eqb_spec (units double a * units double b) 0) as [Z0 | Z0]; [reflexivity |].
    pose proof (magnitude_nonneg double a ok_double) as MA'. pose proof (magnitude_nonneg double b ok_double) as MB'. revert Z0. unfold units.
    generalize (magnitude double a), (magnitude double b), MA', MB'. clear. intros u v Hu Hv. destruct (sign double a), (sign double b); cbn [xorb]; intros N; first [apply Z.ltb_lt | apply Z.ltb_ge]; nia.
  - intros _. replace (2 ^ (2 * quantum double)) with (2 ^ quantum double * 2 ^ quantum double) in X5 by (apply Z.eqb_eq; vm_compute; reflexivity).
    assert (P : 0 < 2 ^ quantum double) by reflexivity. revert X5 P. generalize (2 ^ quantum double), (units double (fst p)), (units double a * units double b). clear.
    intros q u v E P. apply (Z.mul_reg_r _ _ q); [lia |]. rewrite <- Z.mul_assoc. exact E.
Qed.
