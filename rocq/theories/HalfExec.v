(** The half-precision instructions against their specification. *)
From Coq Require Import ZArith Bool List Lia.
From Verif Require Import Bits IeeeSpec FpSpec IntModel FpModel FpProofs FpCvt FpWiden FpHalf FpExec FarithSpec FarithModel FarithProofs FarithExec
  RoundProofs RoundTwice HalfModel HalfProofs HalfConv HalfArith.
Import ListNotations.
Local Open Scope Z_scope.

Lemma inf_pattern : forall f a, okf f -> 0 <= a < 2 ^ width f -> is_inf f a = true -> a = infinity f (sign f a).
Proof.
  intros f a Ok Ha I. destruct (pattern_of f a Ok Ha) as (s & E & F & HE & HF & Ex & S & XE & XF & _). unfold is_inf, special in I.
  apply andb_true_iff in I. destruct I as [I1 I2]. apply Z.eqb_eq in I1, I2. rewrite S. unfold infinity. rewrite Ex at 1. f_equal. rewrite <- XE, <- XF, I1, I2. ring.
Qed.

(** [x] is the single-precision copy of the half pattern [a]. *)
Definition widened (a x : Z) : Prop :=
  0 <= a < 65536 /\ 0 <= x < 2 ^ 32 /\ is_nan single x = is_nan half a /\ is_snan single x = false /\
  (is_nan half a = false -> sign single x = sign half a /\ is_inf single x = is_inf half a /\ is_zero single x = is_zero half a /\
     (is_inf half a = false -> magnitude single x = magnitude half a * DQ)).
Definition sig_flag (a : Z) : Z := if is_snan half a then fNV else 0.

Lemma widened_from : forall a, 0 <= a < 65536 -> widened a (fst (from_half single a)) /\ snd (from_half single a) = sig_flag a.
Proof.
  intros a Ha. unfold widened, sig_flag. destruct (is_nan half a) eqn:N.
  - destruct (widen_nan a Ha N) as (W1 & W2 & W3 & W4). repeat split; try assumption; try apply Ha; try apply W3; discriminate.
  - destruct (widen_num a Ha N) as (W1 & W2 & W3 & W4 & W5 & W6 & W7). assert (SN : is_snan half a = false) by (unfold is_snan; rewrite N; reflexivity). rewrite SN.
    split; [| exact W3]. split; [exact Ha |]. split; [exact W2 |]. split; [exact W1 |]. split; [unfold is_snan; rewrite W1; reflexivity |].
    intros _. split; [exact W4 |]. split; [exact W5 |]. split; [exact W7 |]. intros I. apply W6. exact I.
Qed.
Lemma widened_flip : forall a x, widened a x -> widened (flip half a) (flip single x).
Proof.
  intros a x (A & X & N & SN & R).
  destruct (flip_facts half a ok_half A) as (A1 & _ & _ & A2 & A3 & A4 & A5 & A6 & A7 & _).
  destruct (flip_facts single x ok_single X) as (X1 & _ & _ & X2 & X3 & X4 & X5 & X6 & X7 & _).
  split; [exact A2 |]. split; [exact X2 |]. rewrite A3, X3, X4. split; [exact N |]. split; [exact SN |]. intros NA. destruct (R NA) as (R1 & R2 & R3 & R4).
  rewrite A1, A5, A6, A7, X1, X5, X6, X7, R1, R2, R3. repeat split. exact R4.
Qed.

(** The result in single precision and the result in half precision. *)
Definition matching (Q : Z -> Z -> Prop) (rm fl : Z) (sp sh : Z * Z) : Prop :=
  (fst sp = canonical_nan single /\ sh = (canonical_nan half, Z.lor fl (snd sp))) \/
  (fl = 0 /\
   ((exists s g, sp = (infinity single s, g) /\ sh = (infinity half s, g)) \/
    (exists s, sp = (zero single s, 0) /\ sh = (zero half s, 0)) \/
    (exists n d k zs, 0 < d /\ 0 <= k /\ sp = round_rat single rm (n * 2 ^ k) (d * 2 ^ k) zs /\ sh = round_rat half rm n d zs /\ Q n d))).

Lemma not_nan_flag : forall a, is_nan half a = false -> sig_flag a = 0.
Proof. intros a N. unfold sig_flag, is_snan. rewrite N. reflexivity. Qed.
Lemma units_wide : forall a x, widened a x -> is_nan half a = false -> is_inf half a = false -> units single x = units half a * DQ.
Proof. intros a x (_ & _ & _ & _ & R) N I. destruct (R N) as (S & _ & _ & M). specialize (M I). unfold units. rewrite S, M. destruct (sign half a); ring. Qed.
Lemma abs_units : forall a, 0 <= a < 65536 -> is_nan half a = false -> is_inf half a = false -> Z.abs (units half a) = magnitude half a.
Proof. intros a Ha N I. pose proof (half_bound a Ha N I). unfold units. destruct (sign half a); lia. Qed.

Lemma sig_or : forall a b, Z.lor (sig_flag a) (sig_flag b) = if is_snan half a || is_snan half b then fNV else 0.
Proof. intros a b. unfold sig_flag. destruct (is_snan half a), (is_snan half b); reflexivity. Qed.

Lemma add_matching : forall rm a b x y, widened a x -> widened b y ->
  matching (fun n d => n <> 0 -> safe rm (Z.abs n) d) rm (Z.lor (sig_flag a) (sig_flag b)) (ieee_add single rm x y) (ieee_add half rm a b).
Proof.
  intros rm a b x y Wx Wy. pose proof Wx as (HA & HX & NA & SA & RA). pose proof Wy as (HB & HY & NB & SB & RB). unfold ieee_add, matching. rewrite NA, NB.
  destruct (is_nan half a || is_nan half b) eqn:N.
  { left. rewrite SA, SB, sig_or. split; [reflexivity |]. unfold nan_result. destruct (is_snan half a || is_snan half b); reflexivity. }
  apply orb_false_iff in N. destruct N as [N1 N2]. rewrite !not_nan_flag by assumption. change (Z.lor 0 0) with 0.
  destruct (RA N1) as (A1 & A2 & A3 & A4). destruct (RB N2) as (B1 & B2 & B3 & B4). rewrite A1, A2, B1, B2.
  destruct (is_inf half a) eqn:IA.
  { destruct (is_inf half b && negb (eqb (sign half a) (sign half b))) eqn:C; [left; split; reflexivity |]. right. split; [reflexivity |]. left.
    exists (sign half a), 0. rewrite (inf_pattern single x ok_single HX ltac:(rewrite A2; reflexivity)) at 1. rewrite (inf_pattern half a ok_half HA IA) at 2. rewrite A1. split; reflexivity. }
  destruct (is_inf half b) eqn:IB.
  { right. split; [reflexivity |]. left. exists (sign half b), 0.
    rewrite (inf_pattern single y ok_single HY ltac:(rewrite B2; reflexivity)) at 1. rewrite (inf_pattern half b ok_half HB IB) at 2. rewrite B1. split; reflexivity. }
  right. split; [reflexivity |]. right. right. exists (units half a + units half b), (2 ^ 24), 125, (zero_sum_sign rm (sign half a) (sign half b)).
  rewrite (units_wide a x Wx N1 IA), (units_wide b y Wy N2 IB). split; [reflexivity |]. split; [clear; lia |]. split.
  { unfold DQ. change (2 ^ quantum single) with (2 ^ 24 * 2 ^ 125). rewrite <- Z.mul_add_distr_r. reflexivity. }
  split; [reflexivity |]. { intros NZ. apply (safe_add rm a b); try assumption; apply abs_units; assumption. }
Qed.

Lemma mul_matching : forall rm a b x y, widened a x -> widened b y ->
  matching (fun n d => n <> 0 -> safe rm (Z.abs n) d) rm (Z.lor (sig_flag a) (sig_flag b)) (ieee_mul single rm x y) (ieee_mul half rm a b).
Proof.
  intros rm a b x y Wx Wy. pose proof Wx as (HA & HX & NA & SA & RA). pose proof Wy as (HB & HY & NB & SB & RB). unfold ieee_mul, matching. rewrite NA, NB.
  destruct (is_nan half a || is_nan half b) eqn:N.
  { left. rewrite SA, SB, sig_or. split; [reflexivity |]. unfold nan_result. destruct (is_snan half a || is_snan half b); reflexivity. }
  apply orb_false_iff in N. destruct N as [N1 N2]. rewrite !not_nan_flag by assumption. change (Z.lor 0 0) with 0.
  destruct (RA N1) as (A1 & A2 & A3 & A4). destruct (RB N2) as (B1 & B2 & B3 & B4). rewrite A1, A2, A3, B1, B2, B3.
  destruct (is_inf half a && is_zero half b || is_zero half a && is_inf half b); [left; split; reflexivity |].
  right. split; [reflexivity |].
  destruct (is_inf half a || is_inf half b) eqn:I; [left; exists (xorb (sign half a) (sign half b)), 0; split; reflexivity |].
  apply orb_false_iff in I. destruct I as [IA IB]. right. right. exists (units half a * units half b), (2 ^ 48), 250, (xorb (sign half a) (sign half b)).
  rewrite (units_wide a x Wx N1 IA), (units_wide b y Wy N2 IB). split; [reflexivity |]. split; [clear; lia |]. split.
  { change (2 ^ (2 * quantum single)) with (2 ^ 48 * 2 ^ 250). replace (units half a * DQ * (units half b * DQ)) with (units half a * units half b * 2 ^ 250); [reflexivity |].
    unfold DQ. change (2 ^ 250) with (2 ^ 125 * 2 ^ 125). ring. }
  split; [reflexivity |]. { intros NZ. pose proof (half_bound a HA N1 IA) as BA. pose proof (half_bound b HB N2 IB) as BB.
    assert (E : Z.abs (units half a * units half b) = magnitude half a * magnitude half b) by (rewrite Z.abs_mul, !abs_units by assumption; reflexivity).
    rewrite E. apply safe_mul; try assumption. rewrite <- E. clear - NZ. lia. }
Qed.

Lemma div_matching : forall rm a b x y, widened a x -> widened b y ->
  matching (fun n d => n <> 0 -> safe rm (Z.abs n) d) rm (Z.lor (sig_flag a) (sig_flag b)) (ieee_div single rm x y) (ieee_div half rm a b).
Proof.
  intros rm a b x y Wx Wy. pose proof Wx as (HA & HX & NA & SA & RA). pose proof Wy as (HB & HY & NB & SB & RB). unfold ieee_div, matching. rewrite NA, NB.
  destruct (is_nan half a || is_nan half b) eqn:N.
  { left. rewrite SA, SB, sig_or. split; [reflexivity |]. unfold nan_result. destruct (is_snan half a || is_snan half b); reflexivity. }
  apply orb_false_iff in N. destruct N as [N1 N2]. rewrite !not_nan_flag by assumption. change (Z.lor 0 0) with 0.
  destruct (RA N1) as (A1 & A2 & A3 & A4). destruct (RB N2) as (B1 & B2 & B3 & B4). rewrite A1, A2, A3, B1, B2, B3.
  destruct (is_inf half a && is_inf half b || is_zero half a && is_zero half b); [left; split; reflexivity |].
  right. split; [reflexivity |]. set (s := xorb (sign half a) (sign half b)).
  destruct (is_inf half a) eqn:IA; [left; exists s, 0; split; reflexivity |].
  destruct (is_inf half b) eqn:IB; [right; left; exists s; split; reflexivity |].
  destruct (is_zero half b) eqn:ZB; [left; exists s, fDZ; split; reflexivity |].
  right. right. rewrite (A4 eq_refl), (B4 eq_refl). pose proof (half_bound a HA N1 IA) as BA. pose proof (magnitude_pos half b ok_half ZB) as BB.
  exists (if s then - magnitude half a else magnitude half a), (magnitude half b), 125, s. split; [exact BB |]. split; [clear; lia |]. split.
  { fold DQ. destruct s; [rewrite <- Z.mul_opp_l |]; reflexivity. }
  split; [reflexivity |]. { intros NZ. replace (Z.abs (if s then - magnitude half a else magnitude half a)) with (magnitude half a) by (clear - BA; destruct s; lia).
    apply safe_div; try assumption. clear - NZ BA. destruct s; lia. }
Qed.

Lemma fma_matching : forall rm a b c x y z, widened a x -> widened b y -> widened c z ->
  matching (fun n d => n <> 0 -> Z.abs n < 2 ^ 82 /\ d = 2 ^ 48) rm (Z.lor (Z.lor (sig_flag a) (sig_flag b)) (sig_flag c)) (ieee_fma single rm x y z) (ieee_fma half rm a b c).
Proof.
  intros rm a b c x y z Wx Wy Wz. pose proof Wx as (HA & HX & NA & SA & RA). pose proof Wy as (HB & HY & NB & SB & RB). pose proof Wz as (HC & HZ & NC & SC & RC).
  unfold ieee_fma, matching. rewrite NA, NB, NC.
  destruct (is_nan half a || is_nan half b || is_nan half c) eqn:N.
  { left. rewrite SA, SB, SC. cbn [orb]. split; [reflexivity |]. unfold nan_result. cbn [snd]. f_equal.
    assert (IZ : (is_inf half a && is_zero half b || is_zero half a && is_inf half b) = true -> (is_inf single x && is_zero single y || is_zero single x && is_inf single y) = true).
    { intros E. assert (EN : forall w, is_inf half w = true -> is_nan half w = false) by (intros w; unfold is_inf, is_nan; destruct (special half w), (frac half w =? 0); cbn; congruence).
      assert (EZ : forall w, is_zero half w = true -> is_nan half w = false).
      { intros w. unfold is_zero, is_nan, special. destruct (Z.eqb_spec (expo half w) 0) as [-> |]; [reflexivity | discriminate]. }
      apply orb_true_iff in E. rewrite !andb_true_iff in E. destruct E as [[E1 E2] | [E1 E2]].
      - destruct (RA (EN _ E1)) as (_ & I1 & _). destruct (RB (EZ _ E2)) as (_ & _ & I2 & _). rewrite I1, I2, E1, E2. reflexivity.
      - destruct (RA (EZ _ E1)) as (_ & _ & I1 & _). destruct (RB (EN _ E2)) as (_ & I2 & _). rewrite I1, I2, E1, E2. apply orb_true_r. }
    assert (IZ2 : (is_inf half a && is_zero half b || is_zero half a && is_inf half b) = false -> (is_inf single x && is_zero single y || is_zero single x && is_inf single y) = false).
    { intros E. assert (EN : forall f w, is_nan f w = true -> is_inf f w = false) by (intros f w; unfold is_inf, is_nan; destruct (special f w), (frac f w =? 0); cbn; congruence).
      assert (EZ : forall f w, okf f -> is_nan f w = true -> is_zero f w = false).
      { intros f w Ok. unfold is_zero, is_nan, special. destruct (Z.eqb_spec (expo f w) 0) as [-> |]; [| reflexivity]. destruct Ok as [O1 _].
        destruct (Z.eqb_spec 0 (2 ^ ew f - 1)); [| discriminate]. exfalso. clear - O1 e. pose proof (Z.pow_le_mono_r 2 1 (ew f) ltac:(lia) ltac:(lia)) as P1. change (2 ^ 1) with 2 in P1. lia. }
      destruct (is_nan half a) eqn:NA'; [rewrite (EN single x), (EZ single x ok_single) by exact NA; reflexivity |].
      destruct (is_nan half b) eqn:NB'; [rewrite (EN single y), (EZ single y ok_single) by exact NB; rewrite !andb_false_r; reflexivity |].
      destruct (RA eq_refl) as (_ & I1 & I2 & _). destruct (RB eq_refl) as (_ & I3 & I4 & _). rewrite I1, I2, I3, I4. exact E. }
    unfold sig_flag. destruct (is_inf half a && is_zero half b || is_zero half a && is_inf half b); [rewrite (IZ eq_refl) | rewrite (IZ2 eq_refl)];
      destruct (is_snan half a), (is_snan half b), (is_snan half c); reflexivity. }
  apply orb_false_iff in N. destruct N as [N N3]. apply orb_false_iff in N. destruct N as [N1 N2]. rewrite !not_nan_flag by assumption. change (Z.lor (Z.lor 0 0) 0) with 0.
  destruct (RA N1) as (A1 & A2 & A3 & A4). destruct (RB N2) as (B1 & B2 & B3 & B4). destruct (RC N3) as (C1 & C2 & C3 & C4). rewrite A1, A2, A3, B1, B2, B3, C1, C2.
  set (s := xorb (sign half a) (sign half b)).
  destruct (is_inf half a && is_zero half b || is_zero half a && is_inf half b); [left; split; reflexivity |].
  destruct (is_inf half a || is_inf half b) eqn:I.
  { destruct (is_inf half c && negb (eqb s (sign half c))); [left; split; reflexivity | right; split; [reflexivity | left; exists s, 0; split; reflexivity]]. }
  apply orb_false_iff in I. destruct I as [IA IB]. right. split; [reflexivity |].
  destruct (is_inf half c) eqn:IC.
  { left. exists (sign half c), 0.
    rewrite (inf_pattern single z ok_single HZ ltac:(rewrite C2; reflexivity)) at 1. rewrite (inf_pattern half c ok_half HC IC) at 2. rewrite C1. split; reflexivity. }
  right. right. exists (units half a * units half b + units half c * 2 ^ 24), (2 ^ 48), 250, (zero_sum_sign rm s (sign half c)).
  rewrite (units_wide a x Wx N1 IA), (units_wide b y Wy N2 IB), (units_wide c z Wz N3 IC). split; [reflexivity |]. split; [clear; lia |]. split.
  { change (2 ^ (2 * quantum single)) with (2 ^ 48 * 2 ^ 250).
    replace (units half a * DQ * (units half b * DQ) + units half c * DQ * 2 ^ quantum single) with ((units half a * units half b + units half c * 2 ^ 24) * 2 ^ 250); [reflexivity |].
    unfold DQ. change (2 ^ 250) with (2 ^ 125 * 2 ^ 125). change (2 ^ quantum single) with (2 ^ 24 * 2 ^ 125). ring. }
  split; [reflexivity |]. intros NZ. split; [| reflexivity].
  pose proof (half_bound a HA N1 IA) as BA. pose proof (half_bound b HB N2 IB) as BB. pose proof (half_bound c HC N3 IC) as BC.
  assert (EA : Z.abs (units half a * units half b) < 2 ^ 80) by (rewrite Z.abs_mul, !abs_units by assumption; change (2 ^ 80) with (2 ^ 40 * 2 ^ 40); clear - BA BB; nia).
  assert (EC : Z.abs (units half c * 2 ^ 24) < 2 ^ 64) by (rewrite Z.abs_mul, abs_units by assumption; change (Z.abs (2 ^ 24)) with (2 ^ 24); change (2 ^ 64) with (2 ^ 40 * 2 ^ 24); clear - BC; lia).
  change (2 ^ 82) with (4 * 2 ^ 80). assert (2 ^ 64 < 2 ^ 80) by reflexivity. clear - EA EC H. lia.
Qed.

(** Narrowing what matches. *)
Lemma nan_half : is_nan half (canonical_nan half) = true. Proof. reflexivity. Qed.

Definition tail (H : host) (rm fl : Z) (r : Z * Z) : Z * Z :=
  (fst (to_half H single rm (fst r)), Z.lor (Z.lor fl (snd r)) (snd (to_half H single rm (fst r)))).

Lemma tail_nearly : forall H rm fl r sp sh, host_ok H -> 0 <= rm <= 3 -> like single r sp -> (is_nan single (fst r) = true -> is_snan single (fst r) = false) ->
  matching (fun n d => n <> 0 -> safe rm (Z.abs n) d) rm fl sp sh -> exists s, nearly half s (tail H rm fl r) sh.
Proof.
  intros H rm fl r sp sh HO Hrm L QU M. destruct M as [(E1 & ->) | (-> & M)].
  - destruct L as (LF & LR & LN). rewrite E1 in LN. change (is_nan single (canonical_nan single)) with true in LN. cbv iota in LN. specialize (QU LN).
    exists false. unfold tail. rewrite to_half_special; [| left; reflexivity | exact LR | left; exact LN]. unfold ieee_cvt. rewrite LN, QU, LF. cbn [fst snd nan_result].
    split; [reflexivity | left]. cbn [snd]. rewrite Z.lor_0_r. reflexivity.
  - assert (NUM : forall v, number single v -> fst sp = v -> r = sp).
    { intros v NV E. apply (like_number single); [exact L | rewrite E; exact NV]. }
    destruct M as [(s & g & E1 & E2) | [(s & E1 & E2) | (n & d & k & zs & Hd & Hk & E1 & E2 & SF)]].
    + rewrite (NUM (infinity single s)); [| apply number_inf; exact ok_single | rewrite E1; reflexivity]. rewrite E1, E2. exists s. unfold tail. cbn [fst snd].
      rewrite to_half_special; [| left; reflexivity | destruct s; split; vm_compute; congruence | right; left; destruct s; reflexivity].
      split; [destruct s; reflexivity | left]. cbn [snd]. replace (snd (ieee_cvt single half rm (infinity single s))) with 0 by (destruct s; reflexivity). rewrite Z.lor_0_r. reflexivity.
    + rewrite (NUM (zero single s)); [| apply number_zero; exact ok_single | rewrite E1; reflexivity]. rewrite E1, E2. exists s. unfold tail. cbn [fst snd].
      rewrite to_half_special; [| left; reflexivity | destruct s; split; vm_compute; congruence | right; right; destruct s; reflexivity].
      split; [destruct s; reflexivity | left]. destruct s; reflexivity.
    + pose proof (rat_twice H rm n d zs k HO Hrm Hd Hk SF) as T. cbv zeta in T. rewrite <- E1 in T. rewrite <- E2 in T. destruct T as [NV [s T]].
      rewrite (NUM _ NV eq_refl). exists s. exact T.
Qed.

Lemma half_binary_tail : forall H op rm a b, 0 <= rm <= 3 ->
  half_binary H op rm a b = tail H rm (Z.lor (snd (from_half single a)) (snd (from_half single b))) (op single rm (fst (from_half single a)) (fst (from_half single b))).
Proof.
  intros H op rm a b Hrm. unfold half_binary, tail. rewrite host_rm_id by exact Hrm. destruct (from_half single a), (from_half single b). cbn [fst snd]. destruct (op single rm z z1).
  cbn [fst snd]. destruct (to_half H single rm z3). reflexivity.
Qed.

Lemma half_unary_tail : forall H op rm a, 0 <= rm <= 3 ->
  half_unary H op rm a = tail H rm (snd (from_half single a)) (op single rm (fst (from_half single a))).
Proof.
  intros H op rm a Hrm. unfold half_unary, tail. rewrite host_rm_id by exact Hrm. destruct (from_half single a). cbn [fst snd]. destruct (op single rm z).
  cbn [fst snd]. destruct (to_half H single rm z1). reflexivity.
Qed.

(** The value of a fused multiply-add in the directed modes. *)
Lemma tail_value : forall H rm fl r sp sh, host_ok H -> 1 <= rm <= 3 -> like single r sp ->
  matching (fun n d => n <> 0 -> Z.abs n < 2 ^ 82 /\ d = 2 ^ 48) rm fl sp sh -> fst (tail H rm fl r) = fst sh.
Proof.
  intros H rm fl r sp sh HO Hrm L M. destruct M as [(E1 & ->) | (-> & M)].
  - destruct L as (LF & LR & LN). rewrite E1 in LN. change (is_nan single (canonical_nan single)) with true in LN. cbv iota in LN.
    unfold tail. rewrite to_half_special; [| left; reflexivity | exact LR | left; exact LN]. unfold ieee_cvt. rewrite LN. reflexivity.
  - assert (NUM : forall v, number single v -> fst sp = v -> r = sp).
    { intros v NV E. apply (like_number single); [exact L | rewrite E; exact NV]. }
    destruct M as [(s & g & E1 & E2) | [(s & E1 & E2) | (n & d & k & zs & Hd & Hk & E1 & E2 & SF)]].
    + rewrite (NUM (infinity single s)); [| apply number_inf; exact ok_single | rewrite E1; reflexivity]. rewrite E1, E2. unfold tail. cbn [fst snd].
      rewrite to_half_special; [| left; reflexivity | destruct s; split; vm_compute; congruence | right; left; destruct s; reflexivity]. destruct s; reflexivity.
    + rewrite (NUM (zero single s)); [| apply number_zero; exact ok_single | rewrite E1; reflexivity]. rewrite E1, E2. unfold tail. cbn [fst snd].
      rewrite to_half_special; [| left; reflexivity | destruct s; split; vm_compute; congruence | right; right; destruct s; reflexivity]. destruct s; reflexivity.
    + assert (BND : n <> 0 -> 2 ^ 23 * d <= Z.abs n * 2 ^ 149 /\ Z.abs n * 2 ^ 149 < val single (top single - 1) * d).
      { intros N0. destruct (SF N0) as [NB ->]. pose proof huge as HG. split.
        - apply Z.le_trans with (1 * 2 ^ 149); [vm_compute; congruence | apply Z.mul_le_mono_nonneg_r; [clear; lia | clear - N0; lia]].
        - apply Z.lt_le_trans with (2 ^ 276 * 2 ^ 48); [| apply Z.mul_le_mono_nonneg_r; [clear; lia | exact HG]].
          apply Z.lt_trans with (2 ^ 82 * 2 ^ 149); [apply Z.mul_lt_mono_pos_r; [reflexivity | exact NB] | reflexivity]. }
      pose proof (rat_value H rm n d zs k HO Hrm Hd Hk BND) as T. cbv zeta in T. rewrite <- E1 in T. rewrite <- E2 in T. destruct T as [NV T].
      rewrite (NUM _ NV eq_refl). exact T.
Qed.
Lemma half_fma_tail : forall H np na rm a b c, 0 <= rm <= 3 -> 0 <= a < 65536 -> 0 <= b < 65536 -> 0 <= c < 65536 ->
  let x := fst (from_half single a) in let y := fst (from_half single b) in let z := fst (from_half single c) in
  half_fma H false np na rm a b c = tail H rm (Z.lor (Z.lor (sig_flag a) (sig_flag b)) (sig_flag c)) (h_fma H single rm (if np then neg single x else x) y (if na then neg single z else z)).
Proof.
  intros H np na rm a b c Hrm Ha Hb Hc. unfold half_fma, tail, fma_call. cbn [andb]. rewrite host_rm_id by exact Hrm.
  pose proof (proj2 (widened_from a Ha)) as F1. pose proof (proj2 (widened_from b Hb)) as F2. pose proof (proj2 (widened_from c Hc)) as F3.
  destruct (from_half single a) as [x f1], (from_half single b) as [y f2], (from_half single c) as [z f3]. cbn [fst snd] in *. subst f1 f2 f3.
  destruct (h_fma H single rm _ _ _) as [t f4]. cbn [fst snd]. destruct (to_half H single rm t) as [v f5]. reflexivity.
Qed.

(** ** Conversions *)
Lemma narrowed_unique : forall f g rm s Y o1 o2, okf g -> quantum g < quantum f -> narrowed f g rm s Y o1 -> narrowed f g rm s Y o2 -> o1 = o2.
Proof.
  intros f g rm s Y o1 o2 Og QU (l1 & H1 & B1 & ->) (l2 & H2 & B2 & ->). set (D := 2 ^ (quantum f - quantum g)) in *.
  assert (DP : 0 < D) by (apply pow2_pos; clear - QU; lia).
  assert (A : val g l1 < val g (l2 + 1)) by (clear - DP B1 B2; nia). assert (A' : val g l2 < val g (l1 + 1)) by (clear - DP B1 B2; nia).
  apply val_lt in A; [| assumption | assumption | clear - H2; lia]. apply val_lt in A'; [| assumption | assumption | clear - H1; lia].
  assert (l1 = l2) by (clear - A A'; lia). subst l2. reflexivity.
Qed.
Lemma sd_quantum : forall f, sd f -> quantum half < quantum f.
Proof. intros f [-> | ->]; reflexivity. Qed.
(** The conversion is the same on every host. *)
Lemma to_half_host : forall H H' f rm a, host_ok H -> host_ok H' -> sd f -> 0 <= rm <= 3 -> 0 <= a < 2 ^ width f -> to_half H f rm a = to_half H' f rm a.
Proof.
  intros H H' f rm a HO HO' Hf Hrm Ha. 
  destruct (is_nan f a) eqn:N; [rewrite !to_half_special by (try assumption; left; exact N); reflexivity |].
  destruct (is_inf f a) eqn:I; [rewrite !to_half_special by (try assumption; right; left; exact I); reflexivity |].
  destruct (is_zero f a) eqn:Z0; [rewrite !to_half_special by (try assumption; right; right; exact Z0); reflexivity |].
  apply (narrowed_unique f half rm (sign f a) (magnitude f a)); [exact ok_half | apply sd_quantum; exact Hf | |]; apply to_half_number; try assumption; apply special_of; assumption.
Qed.
Lemma to_half_rmm : forall H f a, to_half H f 4 a = to_half H f 0 a.
Proof. reflexivity. Qed.

(** A number that is normal in half precision, or too large. *)
Lemma to_half_normal : forall H f rm a, host_ok H -> sd f -> 0 <= rm <= 3 -> 0 <= a < 2 ^ width f -> is_nan f a = false -> is_inf f a = false ->
  2 ^ sw half * 2 ^ (quantum f - quantum half) <= magnitude f a -> to_half H f rm a = round_to half rm (sign f a) (magnitude f a) (2 ^ quantum f).
Proof.
  intros H f rm a HO Hf Hrm Ha N I BIG. pose proof (sd_quantum f Hf) as QU. set (D := 2 ^ (quantum f - quantum half)) in *.
  assert (DP : 0 < D) by (apply pow2_pos; clear - QU; lia). change (2 ^ sw half) with 1024 in BIG.
  assert (YP : 0 < magnitude f a) by (clear - BIG DP; lia).
  assert (Z0 : is_zero f a = false) by (destruct (is_zero f a) eqn:E; [destruct (magnitude_zero f a E) as [M0 _]; rewrite M0 in YP; exfalso; clear - YP; lia | reflexivity]).
  destruct (to_half_number H f rm a HO Hf Hrm Ha (special_of f a N I) Z0) as (ly & HL & B & ->).
  destruct (narrow_char f half ok_half QU rm (sign f a) (magnitude f a) YP) as (ly' & HL' & B' & tiny & -> & T1 & _). fold D in B, B'.
  assert (A : val half ly < val half (ly' + 1)) by (clear - DP B B'; nia). assert (A' : val half ly' < val half (ly + 1)) by (clear - DP B B'; nia).
  apply val_lt in A; [| exact ok_half | assumption | clear - HL'; lia]. apply val_lt in A'; [| exact ok_half | assumption | clear - HL; lia].
  assert (ly' = ly) by (clear - A A'; lia). subst ly'.
  assert (TB : tiny_before f half (magnitude f a) = false) by (unfold tiny_before; fold D; change (2 ^ sw half) with 1024; apply Z.ltb_ge; exact BIG).
  rewrite TB, (T1 TB). reflexivity.
Qed.
Lemma val_top_half : val half (top half) = 65536 * 2 ^ 24. Proof. vm_compute. reflexivity. Qed.
Lemma overflow_round : forall rm s p r, 0 < r -> 65536 * r <= p ->
  round_to half rm s p r = (with_sign half s (if match rm with 1 => false | 2 => s | 3 => negb s | _ => true end then top half else top half - 1), fOF + fNX).
Proof.
  intros rm s p r Hr BIG. assert (Hp : 0 < p) by (clear - Hr BIG; lia).
  destruct (round_to_char half rm s p r ok_half Hp Hr) as (lo & tiny & HL & B & E & _). cbv zeta in E. rewrite E. unfold packed.
  assert (TL : top half < lo + 1).
  { assert (V : val half (top half) < val half (lo + 1)).
    { rewrite val_top_half. change (2 ^ quantum half) with (2 ^ 24) in B. assert (T : 0 < 2 ^ 24) by reflexivity. clear - B BIG T Hr. nia. }
    apply val_lt in V; [exact V | exact ok_half | vm_compute; congruence | clear - HL; lia]. }
  match goal with |- context [top half <=? ?P] => replace (top half <=? P) with true end; [reflexivity |].
  symmetry. apply Z.leb_le. destruct (goes_up _ _ _ _ _ _ _); clear - TL; lia.
Qed.

(** Integers. *)
Lemma int_half : forall H rm n, host_ok H -> 0 <= rm <= 3 -> - 2 ^ 63 <= n < 2 ^ 64 -> to_half H single rm (fst (h_int H single rm n)) = ieee_of_int half rm n.
Proof.
  intros H rm n HO Hrm Hn. assert (E : h_int H single rm n = ieee_of_int single rm n).
  { apply (like_number single); [| apply int_number; exact ok_single]. apply (HO single rm 0 0 0); try (split; [clear; lia | reflexivity]); try assumption. left; reflexivity. }
  rewrite E. unfold ieee_of_int, round_rat. destruct (Z.eqb_spec n 0) as [-> | N0].
  { cbn [fst]. rewrite to_half_special; [reflexivity | left; reflexivity | split; vm_compute; congruence | right; right; reflexivity]. }
  set (s := n <? 0). set (p := Z.abs n). assert (PP : 0 < p) by (unfold p; clear - N0; lia). assert (PB : p <= 2 ^ 64) by (unfold p; clear - Hn; lia). clearbody s p.
  pose proof huge as HG.
  assert (LB : 2 ^ 23 * 1 <= p * 2 ^ 149).
  { apply Z.le_trans with (1 * 2 ^ 149); [vm_compute; congruence | apply Z.mul_le_mono_nonneg_r; [clear; lia | clear - PP; lia]]. }
  assert (UB : p * 2 ^ 149 < val single (top single - 1) * 1).
  { rewrite Z.mul_1_r. apply Z.lt_le_trans with (2 ^ 276); [| exact HG]. apply Z.le_lt_trans with (2 ^ 64 * 2 ^ 149); [apply Z.mul_le_mono_nonneg_r; [clear; lia | exact PB] | reflexivity]. }
  destruct (number_round single rm s p 1 ok_single ltac:(clear - PP; lia) ltac:(clear; lia)) as [ZR ZN].
  destruct (round_to_char single rm s p 1 ok_single PP ltac:(clear; lia)) as (lf & tf & HLF & BF & EF & _). cbv zeta in EF. change (quantum single) with 149 in BF, EF.
  set (PF := if goes_up _ _ _ _ _ _ _ then _ else _) in *.
  assert (RF : rounded single rm s 1 (p * 2 ^ 149) lf PF) by (split; [exact HLF | split; [exact BF | reflexivity]]).
  destruct (top_range single ok_single) as (TR1 & TR2 & TR3). pose proof (rounded_nonneg _ _ _ _ _ _ _ RF) as PF0.
  assert (PFB : PF < top single).
  { destruct (rounded_mono single rm s 1 _ lf PF (top single - 1) ok_single ltac:(clear; lia) RF ltac:(clear - TR1; lia)) as [_ M]. specialize (M ltac:(clear - UB; lia)).
    apply val_le in M; [clear - M; lia | exact ok_single | exact PF0 | clear - TR1; lia]. }
  assert (EF' : fst (round_to single rm s p 1) = with_sign single s PF).
  { rewrite EF. unfold packed. replace (top single <=? PF) with false by (symmetry; apply Z.leb_gt; exact PFB). reflexivity. }
  assert (YV : magnitude single (fst (round_to single rm s p 1)) = val single PF) by (rewrite EF'; apply val_magnitude; [exact ok_single | clear - PF0 PFB TR2; lia]).
  assert (FLD : sign single (with_sign single s PF) = s /\ special single (with_sign single s PF) = false).
  { pose proof (Z.div_mod PF (2 ^ 23) ltac:(clear; lia)) as DM. pose proof (Z.mod_pos_bound PF (2 ^ 23) ltac:(clear; lia)) as M.
    assert (TT : top single = 255 * 2 ^ 23) by reflexivity.
    assert (Q : 0 <= PF / 2 ^ 23 < 255) by (split; [apply Z.div_pos; [exact PF0 | clear; lia] | apply Z.div_lt_upper_bound; [clear; lia | clear - PFB TT; lia]]).
    assert (Q' : 0 <= PF / 2 ^ 23 < 2 ^ ew single) by (change (2 ^ ew single) with 256; clear - Q; lia).
    destruct (fields single s _ _ ok_single Q' M) as (F1 & F2 & _). change (sw single) with 23 in F1, F2. rewrite (Z.mul_comm (PF / _)), <- DM in F1, F2.
    split; [exact F1 |]. unfold special. rewrite F2. apply Z.eqb_neq. change (2 ^ ew single - 1) with 255. clear - Q. lia. }
  rewrite <- EF' in FLD. destruct FLD as [FS SPC]. set (z := fst (round_to single rm s p 1)) in *.
  assert (ZI : is_inf single z = false) by (unfold is_inf; rewrite SPC; reflexivity).
  assert (MONO : forall m, 0 < m -> (exists Q, 0 <= Q /\ val single Q = m * 2 ^ 149) -> m <= p -> m * 2 ^ 149 <= val single PF).
  { intros m Hm (Q & HQ & VQ) L. destruct (rounded_mono single rm s 1 _ lf PF Q ok_single ltac:(clear; lia) RF HQ) as [M _]. rewrite VQ, Z.mul_1_r in M. apply M. apply Z.mul_le_mono_nonneg_r; [clear; lia | exact L]. }
  assert (ONE : 2 ^ 149 <= val single PF).
  { rewrite <- (Z.mul_1_l (2 ^ 149)). apply MONO; [clear; lia | | clear - PP; lia]. destruct (representable single 1 149 ok_single) as (Q & HQ & VQ); [split; [clear; lia | reflexivity] | clear; lia | exists Q; split; assumption]. }
  rewrite (to_half_normal H single rm z HO (or_introl eq_refl) Hrm ZR ZN ZI); [| rewrite YV; apply Z.le_trans with (2 ^ 149); [vm_compute; congruence | exact ONE]].
  rewrite FS, YV. change (quantum single) with 149. destruct (Z.le_gt_cases 65536 p) as [BIG | SMALL].
  - rewrite !overflow_round; [reflexivity | clear; lia | clear - BIG; lia | reflexivity |]. apply MONO; [clear; lia | | exact BIG].
    destruct (representable single 65536 149 ok_single) as (Q & HQ & VQ); [split; [clear; lia | reflexivity] | clear; lia | exists Q; split; assumption].
  - destruct (representable single p 149 ok_single) as (Q & HQ & VQ); [change (2 ^ (sw single + 1)) with 16777216; clear - PP SMALL; lia | clear; lia |].
    destruct (rounded_exact single rm s 1 _ lf PF Q ok_single ltac:(clear; lia) RF HQ ltac:(rewrite VQ; clear; ring)) as [P1 _]. rewrite P1, VQ.
    rewrite <- (Z.mul_1_l (2 ^ 149)) at 2. apply round_to_scale; [exact PP | clear; lia | clear; lia].
Qed.

(** ** Boxing *)
Lemma nanbox_half : forall old v, 0 <= v < 65536 -> nanbox 64 16 old v = 0xffff000000000000 + v.
Proof.
  intros old v Hv. unfold nanbox. change (16 <? 64) with true. cbv iota. change (wrap 64 (Z.shiftl (2 ^ 64 - 1) (64 - 16))) with (0xffff * 2 ^ 48).
  change 0xffff000000000000 with (0xffff * 2 ^ 48). apply lor_add; [clear; lia |]. change (2 ^ 48) with 281474976710656. clear - Hv. lia.
Qed.
